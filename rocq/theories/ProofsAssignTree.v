(** The assignment of addresses by configuration writes: the whole tree. *)
From Verif Require Import Base BaseProofs SpecTlp ModelUtils ModelTlp ModelAttrs ModelCapList ModelConfig ModelFunction ModelHost ModelPci ModelRoute ModelEnum ModelAssign SpecBar SpecRoute SpecEnum SpecAssign ModelTree SpecTree
  ModelTreeCfg ModelScan SpecScan ModelEnumCfg SpecEnumCfg ModelAssignCfg SpecAssignCfg SpecTreeCfg ProofsBar ProofsAssign ProofsAssignFacts ProofsEnum ProofsEnumFacts ProofsTree ProofsTreeIds ProofsTreeSet ProofsTreeAll ProofsAssignVia ProofsAssignCfg.
Require Import Sorted.

Section Go.
Context {T : Type} (cw : pcie_id -> Z -> list Z -> T -> res T).
Definition cfg_go :=
  fix go (ds : list (pfn * option pbus)) (l : lims) (s : T) : res (T * list adev * lims) :=
       match ds with
       | [] => Ok (s, [], l)
       | (p, o) :: ds =>
         '(own, l) <- assign_fn p l ;;
         s <- put_allocs cw (p_id p) own s ;;
         match o with
         | None => '(s, r, l') <- go ds l s ;; Ok (s, ADev p own None :: r, l')
         | Some c =>
           '(s, kids, l1) <- cfg_assign cw c l s ;;
           let l1 := round l1 in
           regs <- setup_bridge l (less1 l1) ;;
           s <- put_windows cw (p_id p) regs s ;;
           '(s, r, l') <- go ds l1 s ;;
           Ok (s, ADev p own (Some (regs, kids)) :: r, l')
         end
       end.
Lemma cfg_assign_eq n q m ds l s : cfg_assign cw (PBus n q m ds) l s = cfg_go ds l s.
Proof. reflexivity. Qed.
Lemma cfg_go_cons p o ds l s : cfg_go ((p, o) :: ds) l s =
  ('(own, l) <- assign_fn p l ;;
         s <- put_allocs cw (p_id p) own s ;;
         match o with
         | None => '(s, r, l') <- cfg_go ds l s ;; Ok (s, ADev p own None :: r, l')
         | Some c =>
           '(s, kids, l1) <- cfg_assign cw c l s ;;
           let l1 := round l1 in
           regs <- setup_bridge l (less1 l1) ;;
           s <- put_windows cw (p_id p) regs s ;;
           '(s, r, l') <- cfg_go ds l1 s ;;
           Ok (s, ADev p own (Some (regs, kids)) :: r, l')
         end).
Proof. reflexivity. Qed.
End Go.

(** ** The functions of a bus and their numbers *)
Record tidy (n hi : Z) (l : list hw) : Prop := mkTidy {
  ti_n : 0 <= n <= hi; ti_hi : hi <= 255; ti_ord : ordered n l; ti_rg : Forall (hw_all ranged) l; ti_key : Forall (hw_all keyed) l;
  ti_sort : StronglySorted (fun a b => key a < key b) l; ti_f : Forall (fun z => 0 <= h_f (hw_fn z) < 8) l;
  ti_sub : forall y, In y l -> is_bridge (hw_fn y) = true -> h_sub (hw_fn y) <= hi; ti_host : 1 <= n \/ Forall (fun z => 1 <= h_d (hw_fn z)) l }.
Lemma tidy_kids n hi l x k : tidy n hi l -> In (Hw x k) l -> is_bridge x = true -> n < h_sec x /\ h_sub x <= hi /\ tidy (h_sec x) (h_sub x) k.
Proof.
  intros [Hn Hh O Rg Ky So Ff Su Ho] I B. destruct O as [_ O]. rewrite Forall_forall in *. pose proof (O _ I B) as [_ Os]. cbn [hw_fn] in Os. pose proof (Su _ I B) as Sx. cbn [hw_fn] in Sx. split; [lia|]. split; [exact Sx|].
  pose proof (Rg _ I) as R. apply hw_all_eq in R. destruct R as [R Rk]. unfold ranged in R. cbn [hw_fn hw_below] in R. rewrite B in R. destruct R as [Bu Or]. pose proof (Ky _ I) as Kk. apply hw_all_eq in Kk. destruct Kk as [[K1 K2] Kk]. cbn [hw_below] in K1, K2.
  constructor; try assumption; try lia. intros y Iy By. pose proof (proj1 (Forall_forall _ _) (proj2 Or) y Iy By) as [_ Oy]. pose proof (proj1 (Forall_forall _ _) Rk y Iy) as Ry.
  assert (Iu : In (h_sub (hw_fn y)) (flat_map buses k)).
  { apply in_flat_map. exists y. split; [exact Iy|]. rewrite ranged_buses; [apply in_interval; lia|destruct y; apply hw_all_eq in Ry; tauto|exact By|lia]. }
  rewrite Bu in Iu. apply in_interval in Iu. lia.
Qed.
Lemma tidy_named n hi l y : tidy n hi l -> In y l -> mkId n (h_d (hw_fn y)) (h_f (hw_fn y)) <> id0.
Proof.
  intros Ti I E. injection E as E1 E2 E3. destruct (ti_host _ _ _ Ti) as [H|H]; [lia|]. rewrite Forall_forall in H. specialize (H y I). lia.
Qed.
Lemma calm_of : forall y n hi zs, tidy n hi (hw_below y) -> Forall2 (numbered n) (hw_below y) zs -> calm zs.
Proof.
  induction y as [x0 l0 IH] using hw_rect'. cbn [hw_below]. intros n hi zs Ti N.
  assert (Gen : forall l zs, Forall2 (numbered n) l zs -> (forall y, In y l -> In y l0) -> calm zs).
  { clear zs N. intros l zs N. induction N as [|y z l zs Ny _ IHN]; intros S; [intros e []|]. pose proof (S y (or_introl eq_refl)) as Iy. destruct y as [x k], z as [f br ks]. apply numbered_eq in Ny. destruct Ny as (N1 & Nb & _ & N2).
    apply calm_cons. split; [rewrite N1; exact (tidy_named n hi l0 (Hw x k) Ti Iy)|]. split; [|apply IHN; intros y I; apply S; right; exact I]. subst br. destruct (is_bridge x) eqn:B; [|destruct N2 as [_ ->]; intros e []].
    destruct N2 as [_ N2]. rewrite Forall_forall in IH. destruct (tidy_kids n hi l0 x k Ti Iy B) as (_ & _ & Tk). exact (IH (Hw x k) Iy (h_sec x) (h_sub x) ks Tk N2). }
  exact (Gen l0 zs N (fun _ I => I)).
Qed.
Lemma calm_part n hi l zs l1 : tidy n hi l -> (forall y, In y l1 -> In y l) -> Forall2 (numbered n) l1 zs -> calm zs.
Proof.
  intros Ti S N. induction N as [|y z l1 zs Ny _ IHN]; [intros e []|]. pose proof (S y (or_introl eq_refl)) as Iy. destruct y as [x k], z as [f br ks]. apply numbered_eq in Ny. destruct Ny as (N1 & Nb & _ & N2).
  apply calm_cons. split; [rewrite N1; exact (tidy_named n hi l (Hw x k) Ti Iy)|]. split; [|apply IHN; intros y I; apply S; right; exact I]. subst br. destruct (is_bridge x) eqn:B; [|destruct N2 as [_ ->]; intros e []].
  destruct N2 as [_ N2]. destruct (tidy_kids n hi l x k Ti Iy B) as (_ & _ & Tk). exact (calm_of (Hw x k) (h_sec x) (h_sub x) ks Tk N2).
Qed.
Lemma before_apart n hi lp y l pre : tidy n hi (lp ++ y :: l) -> Forall2 (numbered n) lp pre -> forall c, In c pre -> sits (h_d (hw_fn y)) (h_f (hw_fn y)) c = false.
Proof.
  intros Ti N c I. pose proof (ti_sort _ _ _ Ti) as So. pose proof (ti_f _ _ _ Ti) as Ff. clear Ti. induction N as [|y' z lp pre Ny _ IHN]; [destruct I|]. cbn [app] in So, Ff. apply StronglySorted_inv in So. destruct So as [So1 So2]. destruct I as [<-|I].
  - destruct y' as [x' k'], z as [f br ks]. apply numbered_eq in Ny. destruct Ny as (N1 & _). unfold sits. cbn [net_fn]. rewrite N1. cbn [device func]. rewrite Forall_forall in So2, Ff. pose proof (So2 y ltac:(apply in_or_app; right; left; reflexivity)) as Ky.
    unfold key in Ky. cbn [hw_fn] in Ky. destruct ((h_d x' =? h_d (hw_fn y)) && (h_f x' =? h_f (hw_fn y))) eqn:Q; [lia|reflexivity].
  - exact (IHN I So1 (Forall_inv_tail Ff)).
Qed.
Lemma before_covers n hi lp x k l pre : tidy n hi (lp ++ Hw x k :: l) -> is_bridge x = true -> Forall2 (numbered n) lp pre -> forall c b, In c pre -> h_sec x <= b <= h_sub x -> covers b c = false.
Proof.
  intros Ti B N c b I Hb. destruct (ti_ord _ _ _ Ti) as [O _]. clear Ti. induction N as [|y' z lp pre Ny _ IHN]; [destruct I|]. cbn [app] in O. inversion O as [|? ? O1 O2]; subst. destruct I as [<-|I]; [|exact (IHN I O2)].
  destruct y' as [x' k'], z as [f br ks]. apply numbered_eq in Ny. destruct Ny as (_ & -> & _ & N2). unfold covers. cbn [net_br net_fn]. destruct (is_bridge x') eqn:B'; [|reflexivity]. destruct N2 as [N2 _]. rewrite N2. cbn [fst snd].
  rewrite Forall_forall in O1. pose proof (O1 (Hw x k) ltac:(apply in_or_app; right; left; reflexivity) B' B) as Ox. cbn [hw_fn] in Ox. lia.
Qed.

(** ** The tree *)
Section Tree.
Context (tg : pcie_id -> Z -> Z).
Notation cw := (fun dev => config_write (cfg_ask (tg dev)) dev).
Definition all_written (l : list hw) : Prop := forall n hi K lp pre zs ds L ads L',
  opens n hi K -> tidy n hi (lp ++ l) -> Forall2 (numbered n) lp pre -> Forall2 (numbered n) l zs -> Forall2 shown l zs -> Forall (hw_all fine) l -> same_devs ds (map (view n) l) ->
  go_assign (map (view n) l) L = Ok (ads, L') -> (forall k, 0 <= lim k L) -> (forall k, lim k L' <= top k) ->
  exists zs' ads', cfg_go cw ds L (K (pre ++ zs)) = Ok (K (pre ++ zs'), ads', L') /\ Forall2 same_adev ads' ads /\ Forall2 addressed ads zs' /\ Forall2 (numbered n) l zs'.
Lemma write_all : forall y, all_written (hw_below y).
Proof.
  induction y as [x0 l0 IH] using hw_rect'. cbn [hw_below]. clear x0. induction l0 as [|y l IHl]; intros n hi K lp pre zs ds L ads L' Op Ti Np Nz Z F Sd E H0 HT.
  - inversion Z; subst. cbn [map] in Sd. inversion Sd; subst. cbn in E. injection E as <- <-. exists [], []. split; [reflexivity|]. split; [constructor|]. split; constructor.
  - inversion Z as [|y' z l' zs' S Z']; subst. inversion Nz as [|? ? ? ? Ny Nz']; subst. inversion F as [|? ? Fy Fl]; subst. inversion IH as [|? ? IHy IHr]; subst. specialize (IHl IHr). clear IHr IH Nz Z F.
    pose proof (shown_go_ok y n z S Fy) as Gy. pose proof (shown_all_ok n l zs' Z' Fl) as Gl. destruct y as [x k]. cbn [hw_below] in IHy. apply hw_all_eq in Fy. destruct Fy as [Fy Fk].
    destruct z as [f br ks]. apply shown_eq in S. destruct S as (-> & D1 & D2 & (lay & La & Tl & Se) & R1 & R2 & Wh & Zk). destruct Fy as (Ty & Le & Rg). cbn [hw_fn hw_below] in Ty, Le, Rg.
    apply numbered_eq in Ny. destruct Ny as (N1 & _ & _ & N2).
    cbn [map] in E, Sd. set (p := fst (view n (Hw x k))) in *. assert (Vw : view n (Hw x k) = (p, if is_bridge x then Some (PBus (h_sec x) (h_pri x) (h_sub x) (map (view (h_sec x)) k)) else None)) by reflexivity.
    rewrite Vw in E, Gy, Sd. rewrite go_assign_cons in E. cbn [go_ok] in Gy. destruct Gy as (Fo & Gk & _).
    destruct (assign_fn p L) as [[own L1]|] eqn:Ef; [|discriminate E]. cbn [bind] in E. destruct (fn_chain p L own L1 Fo Ef) as [Ch _]. pose proof (proj1 (chain_facts _ _ _ Ch)) as M1.
    assert (Hy : In (Hw x k) (lp ++ Hw x k :: l)) by (apply in_or_app; right; left; reflexivity).
    pose proof (tidy_named n hi _ (Hw x k) Ti Hy) as Nh. cbn [hw_fn] in Nh.
    assert (Cp : calm pre) by (apply (calm_part n hi _ pre lp Ti); [intros y I; apply in_or_app; left; exact I|exact Np]).
    assert (Cz : calm zs') by (apply (calm_part n hi _ zs' l Ti); [intros y I; apply in_or_app; right; right; exact I|exact Nz']).
    pose proof (before_apart n hi lp (Hw x k) l pre Ti Np) as Ap. cbn [hw_fn] in Ap. pose proof (ti_n _ _ _ Ti) as Hn. pose proof (ti_hi _ _ _ Ti) as Hh.
    assert (Ti' : tidy n hi ((lp ++ [Hw x k]) ++ l)) by (rewrite <- app_assoc; exact Ti).
    assert (Pid : p_id p = mkId n (h_d x) (h_f x)) by reflexivity.
    assert (Lo : total_slots lay = (if p_type p =? 1 then 2 else 6)).
    { rewrite Tl. change (p_type p) with (h_type x). unfold is_bridge. destruct Ty as [-> | ->]; reflexivity. }
    (* the function *)
    assert (One : forall p', alike p' p -> (forall k, lim k L1 <= top k) -> calm ks ->
      exists own' g, assign_fn p' L = Ok (own', L1) /\ map spot own' = map spot own /\
        put_allocs cw (p_id p') own' (K (pre ++ Net f (is_bridge x) ks :: zs')) = Ok (K (pre ++ Net g (is_bridge x) ks :: zs')) /\ f_id g = f_id f /\ bars_at g (net_bars (is_bridge x)) own /\
        (forall a, other a -> f_attr g a = f_attr f a)).
    { intros p' Al B1 Ck. pose proof (fits_within _ _ _ Ch H0 B1) as Fi. assert (Fa : Forall (fun a => 0 <= a_addr a) own) by (rewrite Forall_forall in *; intros a I; destruct (Fi a I); lia).
      destruct (fn_alike p' p (f_attr f) lay L own L1 Al La Se Lo Ty R1 Ef Fa) as (own' & E1 & E2 & E3). exists own', (write_allocs (cfg_wr (is_bridge x)) own' f). split; [exact E1|]. split; [exact E3|].
      assert (Ip : p_id p' = mkId n (h_d x) (h_f x)) by (destruct Al as (-> & _); reflexivity). rewrite Ip. split.
      { apply (put_allocs_here tg n hi K pre zs' (is_bridge x) ks (h_d x) (h_f x) Op ltac:(lia) ltac:(lia) Nh Cp Cz Ck Ap own' f N1). exact (fn_wordly _ _ _ _ E1). }
      pose proof (spot_fits own own' E3 Fi) as Fi'.
      assert (Kd : In (cfg_rd (is_bridge x), cfg_wr (is_bridge x), net_bars (is_bridge x)) bar_kinds) by (destruct (is_bridge x); [exact br_kind|exact ep_kind]).
      assert (Tp : p_type (rom_of_other p p') = if net_bars (is_bridge x) =? 6 then 0 else 1).
      { change (p_type (rom_of_other p p')) with (h_type x). unfold is_bridge. destruct Ty as [-> | ->]; reflexivity. }
      destruct (fn_set _ _ _ lay (rom_of_other p p') L own' L1 f Kd Tp La Tl Se E2 Fi') as (S1 & S2 & S3). cbv zeta in *. split; [exact S2|]. split; [exact (spot_bars _ _ _ _ E3 S1)|exact S3]. }
    destruct (is_bridge x) eqn:Bx.
    + rewrite assign_bus_eq in E. destruct (go_assign (map (view (h_sec x)) k) L1) as [[kids L2]|] eqn:Ek; [|discriminate E]. cbn [bind] in E. cbv zeta in E.
      destruct (setup_bridge L1 (less1 (round L2))) as [r|] eqn:Er; [|discriminate E]. cbn [bind] in E. destruct (go_assign (map (view n) l) (round L2)) as [[rest L3]|] eqn:El; [|discriminate E]. cbn [bind] in E.
      apply Ok_inj, pair_equal_spec in E. destruct E as [<- <-]. pose proof (go_mono _ _ _ _ Gk Ek) as M2. pose proof (go_mono _ _ _ _ Gl El) as M3. pose proof (round_le L2) as M4.
      assert (B1 : forall k, lim k L1 <= top k) by (intros j; specialize (M1 j); specialize (M2 j); specialize (M3 j); specialize (M4 j); specialize (HT j); lia).
      assert (B2 : forall k, lim k L2 <= top k) by (intros j; specialize (M3 j); specialize (M4 j); specialize (HT j); lia).
      assert (B3 : forall k, 0 <= lim k L1) by (intros j; specialize (M1 j); specialize (H0 j); lia).
      assert (B4 : forall k, 0 <= lim k (round L2)) by (intros j; specialize (M2 j); specialize (M4 j); specialize (B3 j); lia).
      inversion Sd as [| |p' p0 bb bb' ds0 ds1 Al Sb Sd']; subst. inversion Sb as [n0 q0 l0' dk dk' Sk]; subst. destruct N2 as [Bf Nk].
      destruct (tidy_kids n hi _ x k Ti Hy Bx) as (Lt & Sx & Tk). pose proof (calm_of (Hw x k) _ _ ks Tk Nk) as Ck.
      destruct (One p' Al B1 Ck) as (own' & g & A1 & A2 & A3 & A4 & A5 & A6).
      assert (Bg : bus_range g = (h_sec x, h_sub x)). { rewrite <- Bf. unfold bus_range. destruct (other_window Io) as (_ & _ & O1 & O2). rewrite !A6 by assumption. reflexivity. }
      assert (Op' : opens (h_sec x) (h_sub x) (fun ks => K (pre ++ Net g true ks :: zs'))).
      { apply (opens_bridge n hi K pre g zs' (h_sec x) (h_sub x) Op Cp Cz); [rewrite A4, N1; exact Nh|exact Bg|exact Lt|exact Sx|exact (before_covers n hi lp x k l pre Ti Bx Np)]. }
      destruct (IHy (h_sec x) (h_sub x) _ [] [] ks dk L1 kids L2 Op' Tk (Forall2_nil _) Nk Zk Fk Sk Ek B3 B2) as (ks' & kids' & W1 & W2 & W3 & W4). cbn [app] in W1.
      pose proof (calm_of (Hw x k) _ _ ks' Tk W4) as Ck'.
      assert (Wg : whole g). { intros j. destruct (Wh eq_refl j) as (u & v & U & V & E'). exists u, v. split; [exact U|]. split; [exact V|]. rewrite <- E'. unfold SpecAssign.windows. destruct (other_window j) as (O1 & O2 & _). rewrite !A6 by assumption. reflexivity. }
      pose proof (setup_range _ _ _ Er) as Rr. destruct (windows_written r g Rr Wg) as (V1 & V2 & V3 & V4). cbv zeta in *. set (g2 := write_windows r g) in *.
      assert (I2 : f_id g2 = mkId n (h_d x) (h_f x)) by (rewrite V1, A4; exact N1).
      pose proof (put_windows_here tg n hi K pre zs' ks' (h_d x) (h_f x) Op ltac:(lia) ltac:(lia) Nh Cp Cz Ck' Ap g r ltac:(rewrite A4; exact N1) Rr) as Pw. fold g2 in Pw.
      assert (Ng : numbered n (Hw x k) (Net g2 true ks')).
      { apply numbered_eq. split; [exact I2|]. split; [symmetry; exact Bx|]. split; [destruct (V4 own A5) as (lay' & U1 & U2 & _); exists lay'; auto|]. split; [rewrite V2; exact Bg|exact W4]. }
      destruct (IHl n hi K (lp ++ [Hw x k]) (pre ++ [Net g2 true ks']) zs' ds0 (round L2) rest L3 Op Ti' ltac:(apply Forall2_app; [exact Np|constructor; [exact Ng|constructor]]) Nz' Z' Fl Sd' El B4 HT) as (zs2 & rest' & Q1 & Q2 & Q3 & Q4).
      exists (Net g2 true ks' :: zs2), (ADev p' own' (Some (r, kids')) :: rest'). split; [|split; [|split]].
      * rewrite cfg_go_cons, A1. cbn [bind]. rewrite A3. cbn [bind]. rewrite cfg_assign_eq, W1. cbn [bind]. cbv zeta. rewrite Er. cbn [bind]. replace (p_id p') with (mkId n (h_d x) (h_f x)) by (destruct Al as (-> & _); reflexivity).
        rewrite Pw. cbn [bind]. rewrite <- !app_assoc in Q1. cbn [app] in Q1. rewrite Q1. reflexivity.
      * constructor; [|exact Q2]. constructor; assumption.
      * constructor; [|exact Q3]. apply addressed_bridge; [exact I2|exact (V4 own A5)|exact V3|exact W3].
      * constructor; [exact Ng|exact Q4].
    + destruct (go_assign (map (view n) l) L1) as [[rest L3]|] eqn:El; [|discriminate E]. cbn [bind] in E. apply Ok_inj, pair_equal_spec in E. destruct E as [<- <-].
      pose proof (go_mono _ _ _ _ Gl El) as M3. assert (B1 : forall k, lim k L1 <= top k) by (intros j; specialize (M1 j); specialize (M3 j); specialize (HT j); lia).
      assert (B3 : forall k, 0 <= lim k L1) by (intros j; specialize (M1 j); specialize (H0 j); lia). destruct N2 as [-> ->].
      inversion Sd as [|p' p0 ds0 ds1 Al Sd'|]; subst. destruct (One p' Al B1 ltac:(intros e [])) as (own' & g & A1 & A2 & A3 & A4 & A5 & A6).
      assert (I2 : f_id g = mkId n (h_d x) (h_f x)) by (rewrite A4; exact N1).
      assert (Ng : numbered n (Hw x []) (Net g false [])).
      { apply numbered_eq. split; [exact I2|]. split; [symmetry; exact Bx|]. split; [destruct A5 as (lay' & U1 & U2 & _); exists lay'; auto|]. split; reflexivity. }
      destruct (IHl n hi K (lp ++ [Hw x []]) (pre ++ [Net g false []]) zs' ds0 L1 rest L3 Op Ti' ltac:(apply Forall2_app; [exact Np|constructor; [exact Ng|constructor]]) Nz' Z' Fl Sd' El B3 HT) as (zs2 & rest' & Q1 & Q2 & Q3 & Q4).
      exists (Net g false [] :: zs2), (ADev p' own' None :: rest'). split; [|split; [|split]].
      * rewrite cfg_go_cons, A1. cbn [bind]. rewrite A3. cbn [bind]. rewrite <- !app_assoc in Q1. cbn [app] in Q1. rewrite Q1. reflexivity.
      * constructor; [|exact Q2]. constructor; assumption.
      * constructor; [|exact Q3]. cbn [addressed]. split; [exact I2|]. split; [exact A5|reflexivity].
      * constructor; [exact Ng|exact Q4].
Qed.
End Tree.

(** ** From the host on *)
Lemma tidy_system m h h' b : good_system m h -> scan_root m h = Ok (h', b) -> tidy 0 255 (hw_below h').
Proof.
  intros G Sc. assert (Le : bridges h <= 256). { pose proof (scan_system m h G) as SS. destruct (bridges h <=? 256) eqn:Le; [lia|]. rewrite Sc in SS. discriminate SS. }
  destruct (enumerated m h G Le) as (h1 & E1 & Fo & _ & Bu & O & Rg & Ky & _). rewrite Sc in E1. injection E1 as <- _. destruct h as [x l], h' as [x' l']. cbn [hw_below] in *. apply hw_all_eq in Ky. destruct Ky as [[K1 K2] Kl]. cbn [hw_below] in *.
  constructor; try assumption; try lia.
  - intros y Iy By. pose proof (proj1 (Forall_forall _ _) (proj2 O) y Iy By) as [_ Oy]. pose proof (proj1 (Forall_forall _ _) Rg y Iy) as Ry.
    assert (Iu : In (h_sub (hw_fn y)) (buses (Hw x' l'))).
    { cbn [buses]. apply in_or_app. right. apply in_flat_map. exists y. split; [exact Iy|]. rewrite ranged_buses; [apply in_interval; lia|destruct y; apply hw_all_eq in Ry; tauto|exact By|lia]. }
    rewrite Bu in Iu. apply in_interval in Iu. lia.
  - right. destruct G as (_ & _ & _ & _ & _ & _ & _ & Gr). cbn [hw_below] in Gr. assert (Fl : map forget l' = map forget l) by (cbn [forget] in Fo; injection Fo; auto). clear - Gr Fl. revert l' Fl.
    induction Gr as [|y l (D & _) _ IH]; intros [|y' l'] E; try discriminate E; constructor; injection E as E1 E2; [destruct (forget_key _ _ E1) as (_ & -> & _); exact D|apply IH; exact E2].
Qed.
Lemma fine_net m h h' b zs : good_system m h -> scan_root m h = Ok (h', b) -> Forall2 shown (hw_below h') zs ->
  b = PBus 0 0 (bridges h - 1) (map (view 0) (hw_below h')) /\ Forall (hw_all fine) (hw_below h').
Proof.
  intros G Sc Z. assert (Z0 : Forall2 shown (hw_below h) zs).
  { assert (Le : bridges h <= 256). { pose proof (scan_system m h G) as SS. destruct (bridges h <=? 256) eqn:Le; [lia|]. rewrite Sc in SS. discriminate SS. }
    destruct (enumerated m h G Le) as (h1 & E1 & Fo & _). rewrite Sc in E1. injection E1 as <- _. destruct h as [x l], h' as [x' l']. cbn [hw_below] in *. assert (Fl : map forget l = map forget l') by (cbn [forget] in Fo; injection Fo; auto).
    clear - Z Fl. revert l Fl. induction Z as [|y z l zs S _ IH]; intros [|y' l'] E; try discriminate E; constructor; injection E as E1 E2; [apply (shown_forget y); assumption|auto]. }
  destruct (enumerated_fine m h h' b zs G Sc Z0) as (Eb & _ & F & _). auto.
Qed.
Section Assigned.
Context (tg : pcie_id -> Z -> Z) (m : Z) (h h' : hw) (b b' : pbus) (z : net) (l l' : lims) (n : list adev).
Hypothesis U : to_assign m h h' b b' z l n l'.
Notation cw := (fun dev => config_write (cfg_ask (tg dev)) dev).
Lemma assigned : exists z' n', cfg_assign cw b' l z = Ok (z', n', l') /\ Forall2 same_adev n' n /\ tree_ok b /\
  exists f zs, open_net l l' z' = Net f true zs /\ host_like f /\ (forall k, SpecAssign.windows f k = (lim k l, lim k l')) /\ Forall2 addressed n zs /\ Forall2 (numbered 0) (hw_below h') zs.
Proof.
  destruct U as (G & Sc & (f & zs & -> & H & Z & N) & Sb & As & Li). destruct (fine_net m h h' b zs G Sc Z) as [Eb F]. assert (X : exists ds, b' = PBus 0 0 (bridges h - 1) ds /\ same_devs ds (map (view 0) (hw_below h'))).
  { pose proof Sb as Sb'. rewrite Eb in Sb'. inversion Sb'. eauto. }
  destruct X as (ds & Eb' & Sd). pose proof As as As'. rewrite Eb, assign_bus_eq in As'.
  pose proof (tidy_system m h h' b G Sc) as Ti. destruct H as (H1 & H2 & H3).
  destruct (write_all tg h' 0 255 (Net f true) [] [] zs ds l n l' (opens_host f H3) Ti (Forall2_nil _) N Z F Sd As' ltac:(intros k; specialize (Li k); lia) ltac:(intros k; specialize (Li k); lia)) as (zs' & n' & W1 & W2 & W3 & W4).
  exists (Net f true zs'), n'. split; [rewrite Eb'; exact W1|]. split; [exact W2|]. split; [rewrite Eb; exact (shown_all_ok 0 _ _ Z F)|]. destruct (host_opened l l' f (conj H1 (conj H2 H3))) as [O1 O2]. exists (open_host l l' f), zs'. split; [reflexivity|]. auto.
Qed.
Lemma assigned_ids z' n' lx : cfg_assign cw b' l z = Ok (z', n', lx) -> forall t ty dst, tlp_check t = Ok true -> fmt_type t = Ok ty -> route_of ty t = TBus dst \/ route_of ty t = TBack dst -> dst <> mkId 0 0 0 -> 0 <= bus dst < 256 ->
  (In dst (map number (below_functions h')) -> exists g t', reach (open_net l lx z') t = Ok (Some (g, t')) /\ f_id g = dst /\ In g (map fst (below (open_net l lx z'))) /\ arrived t t') /\
  (~ In dst (map number (below_functions h')) -> reach (open_net l lx z') t = Ok None).
Proof.
  intros Ca t ty dst C T R D0 Hb. destruct assigned as (z1 & n1 & E1 & _ & _ & f & zs' & Eo & H & _ & _ & N). rewrite Ca in E1. apply Ok_inj, pair_equal_spec in E1. destruct E1 as [E1 ->]. apply pair_equal_spec in E1. destruct E1 as [-> ->]. rewrite Eo. cbn [below]. destruct U as (G & Sc & _).
  destruct (ids m h h' b f zs' G Sc H N t ty dst C T D0 Hb) as [I1 I2]. destruct R as [R|R].
  - destruct (I1 R) as [J1 J2]. split; [|exact J2]. intros I. destruct (J1 I) as (g & E & Eg & Ig). exists g, (set_type_ 4 t). split; [exact E|]. split; [exact Eg|]. split; [exact Ig|].
    right. split; [reflexivity|]. destruct ty; try discriminate R; [left|right]; split; try exact T.
    + destruct (ProofsRoute.type0 t _ CFG_READ_0 T ltac:(auto)) as (<- & _ & E3). exact E3.
    + destruct (ProofsRoute.type0 t _ CFG_WRITE_0 T ltac:(auto)) as (<- & _ & E3). exact E3.
  - destruct (I2 R) as [J1 J2]. split; [|exact J2]. intros I. destruct (J1 I) as (g & E & Eg & Ig). exists g, t. split; [exact E|]. split; [exact Eg|]. split; [exact Ig|].
    left. split; [reflexivity|]. intros ty' T' J. rewrite T in T'. injection T' as <-. destruct J as [<-|[<-|[]]]; discriminate R.
Qed.
Lemma assigned_address z' n' lx : cfg_assign cw b' l z = Ok (z', n', lx) -> forall t ty io x, tlp_check t = Ok true -> fmt_type t = Ok ty -> route_of ty t = TAddr io x -> 0 <= x < 2 ^ 64 ->
  (forall k, (granule k | lim k l)) -> apart l lx -> (forall p a, In (p, a) (flat_map bar_allocs n) -> decodes io x a) ->
  (forall p a, In (p, a) (flat_map bar_allocs n) -> holds io x a ->
    exists g nb j, reach (open_net l lx z') t = Ok (Some (g, t)) /\ In (g, nb) (below (open_net l lx z')) /\ f_id g = p_id p /\
      match_bar nb x io (f_attr g) = Ok (Some (j, x - a_addr a)) /\ a_reg a = 0x10 + 4 * j) /\
  ((forall p a, In (p, a) (flat_map bar_allocs n) -> ~ holds io x a) -> reach (open_net l lx z') t = Ok None).
Proof.
  intros Ca t ty io x C T R X Gr Ap D. destruct assigned as (z1 & n1 & E1 & _ & Tk & f & zs' & Eo & H & W & A & _). rewrite Ca in E1. apply Ok_inj, pair_equal_spec in E1. destruct E1 as [E1 ->]. apply pair_equal_spec in E1. destruct E1 as [-> ->]. rewrite Eo. cbn [below]. destruct U as (_ & _ & _ & _ & As & Li).
  apply (addr_all t ty io x l b n l' f zs' C T R X); try assumption; [|apply H]. split; [exact Tk|]. split; [exact As|]. split; [intros k; specialize (Li k); specialize (Gr k); tauto|exact Ap].
Qed.
End Assigned.
