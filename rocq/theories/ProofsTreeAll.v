(** The whole tree after enumeration and assignment. *)
From Verif Require Import Base BaseProofs Bits ModelUtils ModelTlp ModelAttrs ModelCapList ModelConfig ModelFunction ModelRoute ModelEnum ModelAssign SpecBar SpecRoute
  SpecEnum SpecAssign ModelTree SpecTree ProofsConfigLow ProofsBar ProofsProbe ProofsRoute ProofsAssign ProofsAssignFacts ProofsEnum ProofsEnumFacts ProofsMps
  ProofsTree ProofsTreeIds ProofsTreeSet.

(** ** Bridges *)
Lemma bus_bits old pri sec sub : 0 <= pri < 2 ^ 8 -> 0 <= sec < 2 ^ 8 -> 0 <= sub < 2 ^ 8 ->
  let v := Z.lor (Z.lor (Z.lor (Z.land old 0xff000000) pri) (Z.shiftl sec 8)) (Z.shiftl sub 16) in
  Z.land (Z.shiftr v 8) 0xff = sec /\ Z.land (Z.shiftr v 16) 0xff = sub.
Proof. intros H1 H2 H3. cbv zeta. split; bits. Qed.
Definition br_kind : In (br_read, br_write, 2) bar_kinds := or_intror (or_introl eq_refl).
Definition ep_kind : In (ep_read, ep_write, 6) bar_kinds := or_introl eq_refl.
Lemma buses_written pri sec sub f : 0 <= pri < 2 ^ 8 -> 0 <= sec < 2 ^ 8 -> 0 <= sub < 2 ^ 8 ->
  let f' := write_buses pri sec sub f in
  f_id f' = f_id f /\ bus_range f' = (sec, sub) /\ (forall k, SpecAssign.windows f' k = SpecAssign.windows f k) /\
  (forall lay, total_slots lay = 2 -> laid_out (f_attr f) 0 lay -> laid_out (f_attr f') 0 lay).
Proof.
  intros H1 H2 H3. cbv zeta. unfold write_buses. set (old := match br_read f 6 with Ok (Some v) => v | _ => 0 end). destruct (bus_bits old pri sec sub H1 H2 H3) as [E1 E2]. cbv zeta in E1, E2.
  set (v := Z.lor _ _) in *. clearbody v. destruct (kind_bars _ _ _ br_kind) as [_ K]. rewrite br_write_eq in *. split; [reflexivity|]. split; [|split].
  - unfold bus_range. rewrite <- E1, <- E2 at 1. reflexivity.
  - intros []; reflexivity.
  - intros lay T L. apply (laid_frame (f_attr f)); [|exact L]. intros j Hj. rewrite T in Hj. destruct (K j f ltac:(lia)) as [_ K1]. rewrite <- br_write_eq. destruct (K1 6 v 15) as [K2 K3]. split; [|exact K2].
    rewrite K3. replace (6 =? 4 + j) with false by lia. reflexivity.
Qed.
Lemma windows_program r f : regs_range r -> write_windows r f = program r f.
Proof.
  intros (R1 & R2 & R3 & R4 & R5 & R6). assert (J : forall n v, 0 <= n -> 0 <= fst v < 2 ^ n -> Z.lor (fst v) (Z.shiftl (snd v) n) = joined n v).
  { intros n v Hn Hv. unfold joined. rewrite Z.lor_comm, <- add_high by assumption. lia. }
  unfold write_windows, program. cbv zeta. rewrite !J by (try lia; tauto). reflexivity.
Qed.
Lemma windows_written r f : regs_range r -> whole f ->
  let f' := write_windows r f in
  f_id f' = f_id f /\ bus_range f' = bus_range f /\ (forall k, SpecAssign.windows f' k = window k r) /\
  (forall own, bars_at f 2 own -> bars_at f' 2 own).
Proof.
  intros R W. cbv zeta. rewrite windows_program by exact R. split; [unfold program; rewrite !br_write_eq; reflexivity|]. split; [unfold program; rewrite !br_write_eq; reflexivity|].
  split; [exact (program_windows r f R W)|]. destruct (kind_bars _ _ _ br_kind) as [_ K].
  intros own (lay & L & T & E). exists lay. split; [|auto]. apply (laid_frame (f_attr f)); [|exact L]. intros j Hj. rewrite T in Hj. unfold program.
  assert (One : forall reg d be g, 6 <= reg -> f_attr (br_write reg d be g) (fn_bar j) = f_attr g (fn_bar j) /\ f_attr (br_write reg d be g) (fn_bar_mask j) = f_attr g (fn_bar_mask j)).
  { intros reg d be g Hr. destruct (K j g ltac:(lia)) as [_ K1]. destruct (K1 reg d be) as [K2 K3]. split; [|exact K2]. rewrite K3. replace (reg =? 4 + j) with false by lia. reflexivity. }
  assert (One1 : forall reg d be g, 6 <= reg -> f_attr (br_write reg d be g) (fn_bar j) = f_attr g (fn_bar j)) by (intros; apply One; assumption).
  assert (One2 : forall reg d be g, 6 <= reg -> f_attr (br_write reg d be g) (fn_bar_mask j) = f_attr g (fn_bar_mask j)) by (intros; apply One; assumption).
  split; [rewrite !One1 by lia|rewrite !One2 by lia]; reflexivity.
Qed.
Lemma other_window k : other (base_attr k) /\ other (limit_attr k) /\ other fn_sec_bus_num /\ other fn_sub_bus_num.
Proof.
  assert (O : forall a, In a [fn_io_base; fn_mem_base; fn_prefetchable_mem_base; fn_io_limit; fn_mem_limit; fn_prefetchable_mem_limit; fn_sec_bus_num; fn_sub_bus_num] -> other a).
  { intros a I. split; [|cbn in I; intuition (subst; discriminate)]. intros j Hj. assert (C : j = 0 \/ j = 1 \/ j = 2 \/ j = 3 \/ j = 4 \/ j = 5) by lia.
    cbn in I. destruct C as [->|[->|[->|[->|[->| ->]]]]]; intuition (subst; discriminate). }
  repeat split; try (apply O; cbn; tauto); apply O; destruct k; cbn; tauto.
Qed.

(** ** Functions *)
Definition fine (y : hw) : Prop :=
  (h_type (hw_fn y) = 0 \/ h_type (hw_fn y) = 1) /\ (h_type (hw_fn y) = 0 -> hw_below y = []) /\
  (is_bridge (hw_fn y) = true -> 0 <= h_pri (hw_fn y) < 2 ^ 8 /\ 0 <= h_sec (hw_fn y) < 2 ^ 8 /\ 0 <= h_sub (hw_fn y) < 2 ^ 8).
Lemma go_shown l l' :
  (fix go (l : list hw) (l' : list net) : Prop := match l, l' with [], [] => True | y :: l, z :: l' => shown y z /\ go l l' | _, _ => False end) l l' <-> Forall2 shown l l'.
Proof.
  revert l'. induction l as [|a k IH]; intros [|z l].
  - split; intros; [constructor|exact Logic.I].
  - split; intros H; [destruct H|inversion H].
  - split; intros H; [destruct H|inversion H].
  - split.
    + intros [H1 H2]. constructor; [exact H1|]. apply IH. exact H2.
    + intros H. inversion H; subst. split; [assumption|]. apply IH. assumption.
Qed.
Lemma shown_eq x l f br l' : shown (Hw x l) (Net f br l') <->
  br = is_bridge x /\ device (f_id f) = h_d x /\ func (f_id f) = h_f x /\
  (exists lay, laid_out (f_attr f) 0 lay /\ total_slots lay = net_bars br /\ seen lay (h_bars x)) /\
  SpecAssign.size_ok 11 (snd (h_rom x)) /\ 0 <= fst (h_rom x) /\ (br = true -> whole f) /\ Forall2 shown l l'.
Proof. cbn [shown]. rewrite go_shown. tauto. Qed.
Lemma shown_fn_ok n x l z : shown (Hw x l) z -> fine (Hw x l) -> fn_ok (fst (view n (Hw x l))).
Proof.
  destruct z as [f br l']. intros S (Ty & _). apply shown_eq in S. destruct S as (-> & _ & _ & (lay & L & T & Se) & R1 & R2 & _). cbn [hw_fn] in Ty. cbn [view fst].
  pose proof (seen_slots _ _ Se) as Sl. pose proof (seen_ok _ _ _ _ L Se) as Bo. unfold fn_ok. cbn [p_type p_bars p_rom]. unfold is_bridge in T. unfold zlen in Sl. split; intros Q; rewrite Q in T; cbn in T;
    (rewrite firstn_all2 by lia); auto.
Qed.
Lemma shown_go_ok : forall y n z, shown y z -> hw_all fine y -> go_ok [view n y].
Proof.
  induction y as [x l IH] using hw_rect'. intros n z S F. apply hw_all_eq in F. destruct F as [F Fl]. pose proof (shown_fn_ok n x l z S F) as Fo. destruct z as [f br l']. apply shown_eq in S. destruct S as (_ & _ & _ & _ & _ & _ & _ & Z).
  cbn [view go_ok] in *. split; [exact Fo|]. split; [|exact Logic.I]. destruct (is_bridge x); [|exact Logic.I]. change (go_ok (map (view (h_sec x)) l)).
  clear Fo F. revert IH Fl. induction Z as [|y z l l' N Z IHZ]; intros IH Fl; [exact Logic.I|]. inversion IH; subst. inversion Fl; subst. specialize (IHZ ltac:(assumption) ltac:(assumption)).
  match goal with H : forall n z, shown y z -> _ |- _ => specialize (H (h_sec x) z N ltac:(assumption)) end. cbn [map]. destruct (view (h_sec x) y) as [p o]. cbn [go_ok] in *. tauto.
Qed.
Lemma shown_all_ok n l l' : Forall2 shown l l' -> Forall (hw_all fine) l -> go_ok (map (view n) l).
Proof.
  induction 1 as [|y z l l' S Z IH]; intros F; [exact Logic.I|]. inversion F; subst. pose proof (shown_go_ok y n z S ltac:(assumption)) as G. specialize (IH ltac:(assumption)). cbn [map]. destruct (view n y). cbn [go_ok] in *. tauto.
Qed.
Lemma fits_within l own l' : chain l own l' -> (forall k, 0 <= lim k l) -> (forall k, lim k l' <= top k) -> Forall fits_in own.
Proof.
  intros C H1 H2. destruct (chain_facts _ _ _ C) as (_ & W & A & _). rewrite Forall_forall in *. intros a I. destruct (W a I) as [W1 W2], (A a I) as (A1 & A2 & _).
  specialize (H1 (a_kind a)). specialize (H2 (a_kind a)). unfold fits_in. split; [lia|]. split; [lia|exact A1].
Qed.
Lemma configure_leaf n x own p l l' f lay : is_bridge x = false -> (h_type x = 0 \/ h_type x = 1) -> device (f_id f) = h_d x -> func (f_id f) = h_f x -> laid_out (f_attr f) 0 lay -> total_slots lay = 6 -> seen lay (h_bars x) ->
  p_type p = h_type x -> p_bars p = h_bars x -> assign_fn p l = Ok (own, l') -> Forall fits_in own ->
  let f' := configure n x own None f in f_id f' = mkId n (h_d x) (h_f x) /\ bars_at f' 6 own.
Proof.
  intros B Ty D1 D2 L T Se Pt Pb E F. cbv zeta. unfold configure. rewrite D1, D2. assert (Ht : p_type p = if 6 =? 6 then 0 else 1) by (cbn; unfold is_bridge in B; lia). rewrite <- Pb in Se.
  destruct (fn_set _ _ _ lay p l own l' (with_id (mkId n (h_d x) (h_f x)) f) ep_kind Ht L T Se E F) as (R1 & R2 & _). cbv zeta in *. split; [rewrite R2; reflexivity|exact R1].
Qed.
Lemma configure_bridge n x own r p l l' f lay : is_bridge x = true -> h_type x = 1 -> 0 <= h_pri x < 2 ^ 8 -> 0 <= h_sec x < 2 ^ 8 -> 0 <= h_sub x < 2 ^ 8 ->
  device (f_id f) = h_d x -> func (f_id f) = h_f x -> laid_out (f_attr f) 0 lay -> total_slots lay = 2 -> seen lay (h_bars x) -> whole f ->
  p_type p = h_type x -> p_bars p = h_bars x -> assign_fn p l = Ok (own, l') -> Forall fits_in own -> regs_range r ->
  let f' := configure n x own (Some r) f in f_id f' = mkId n (h_d x) (h_f x) /\ bars_at f' 2 own /\ bus_range f' = (h_sec x, h_sub x) /\ (forall k, SpecAssign.windows f' k = window k r).
Proof.
  intros B Ty P1 P2 P3 D1 D2 L T Se Wh Pt Pb E F R. cbv zeta. unfold configure. rewrite D1, D2. set (f0 := with_id (mkId n (h_d x) (h_f x)) f).
  destruct (buses_written (h_pri x) (h_sec x) (h_sub x) f0 P1 P2 P3) as (A1 & A2 & A3 & A4). cbv zeta in *. set (f1 := write_buses _ _ _ f0) in *.
  assert (Ht : p_type p = if 2 =? 6 then 0 else 1) by (cbn; lia). rewrite <- Pb in Se.
  destruct (fn_set _ _ _ lay p l own l' f1 br_kind Ht (A4 lay T L) T Se E F) as (R1 & R2 & R3). cbv zeta in *. set (f2 := write_allocs br_write own f1) in *.
  assert (Wh2 : whole f2). { intros k. destruct (Wh k) as (u & v & U & V & E'). exists u, v. split; [exact U|]. split; [exact V|]. rewrite <- E'. change (SpecAssign.windows f k) with (SpecAssign.windows f0 k). rewrite <- A3.
    unfold SpecAssign.windows. destruct (other_window k) as (O1 & O2 & _). rewrite !R3 by assumption. reflexivity. }
  destruct (windows_written r f2 R Wh2) as (W1 & W2 & W3 & W4). cbv zeta in *. split; [rewrite W1, R2, A1; reflexivity|]. split; [apply W4; exact R1|]. split; [|exact W3].
  rewrite W2, <- A2. unfold bus_range. destruct (other_window Io) as (_ & _ & O1 & O2). rewrite !R3 by assumption. reflexivity.
Qed.

(** ** The tree *)
Lemma zip3_cons {A B C D} (g : A -> B -> C -> D) a l b k c l' : zip3 g (a :: l) (b :: k) (c :: l') = g a b c :: zip3 g l k l'.
Proof. reflexivity. Qed.
Definition all_set (l : list hw) : Prop := forall n zs L ads L', Forall2 shown l zs -> Forall (hw_all fine) l -> go_assign (map (view n) l) L = Ok (ads, L') ->
  (forall k, 0 <= lim k L) -> (forall k, lim k L' <= top k) ->
  Forall2 addressed ads (zip3 (configure_net n) l ads zs) /\ Forall2 (numbered n) l (zip3 (configure_net n) l ads zs).
Lemma go_mono ds L ads L' : go_ok ds -> go_assign ds L = Ok (ads, L') -> le_lims L L'.
Proof. intros O E. destruct (assign_laid (PBus 0 0 0 ds) L ads L' O E) as [H _]. apply laid_facts in H. apply H. Qed.
Lemma addressed_bridge p own r kids f l : f_id f = p_id p -> bars_at f 2 own -> (forall k, SpecAssign.windows f k = window k r) -> Forall2 addressed kids l ->
  addressed (ADev p own (Some (r, kids))) (Net f true l).
Proof. intros A B W Z. cbn [addressed]. split; [exact A|]. split; [exact B|]. split; [reflexivity|]. split; [exact W|]. apply go_addressed. exact Z. Qed.
Lemma setup_all : forall y, all_set (hw_below y).
Proof.
  induction y as [x0 l0 IH] using hw_rect'. cbn [hw_below]. clear x0. induction l0 as [|y l IHl]; intros n zs L ads L' Z F E H0 HT.
  - inversion Z; subst. cbn in E. injection E as <- <-. split; constructor.
  - inversion Z as [|y' z l' zs' S Z']; subst. inversion F as [|? ? Fy Fl]; subst. inversion IH as [|? ? IHy IHr]; subst. specialize (IHl IHr). clear IHr IH.
    pose proof (shown_go_ok y n z S Fy) as Gy. pose proof (shown_all_ok n l zs' Z' Fl) as Gl. destruct y as [x k]. cbn [hw_below] in IHy. apply hw_all_eq in Fy. destruct Fy as [Fy Fk].
    destruct z as [f br ks]. apply shown_eq in S. destruct S as (-> & D1 & D2 & (lay & La & T & Se) & R1 & R2 & Wh & Zk). destruct Fy as (Ty & Le & Rg). cbn [hw_fn hw_below] in Ty, Le, Rg.
    cbn [map] in E. set (p := fst (view n (Hw x k))) in *. assert (Vw : view n (Hw x k) = (p, if is_bridge x then Some (PBus (h_sec x) (h_pri x) (h_sub x) (map (view (h_sec x)) k)) else None)) by reflexivity.
    rewrite Vw in E, Gy. rewrite go_assign_cons in E. cbn [go_ok] in Gy. destruct Gy as (Fo & Gk & _).
    destruct (assign_fn p L) as [[own L1]|] eqn:Ef; [|discriminate E]. cbn [bind] in E. destruct (fn_chain p L own L1 Fo Ef) as [Ch _]. pose proof (proj1 (chain_facts _ _ _ Ch)) as M1.
    destruct (is_bridge x) eqn:Bx.
    + rewrite assign_bus_eq in E. destruct (go_assign (map (view (h_sec x)) k) L1) as [[kids L2]|] eqn:Ek; [|discriminate E]. cbn [bind] in E. cbv zeta in E.
      destruct (setup_bridge L1 (less1 (round L2))) as [r|] eqn:Er; [|discriminate E]. cbn [bind] in E. destruct (go_assign (map (view n) l) (round L2)) as [[rest L3]|] eqn:El; [|discriminate E]. cbn [bind] in E.
      apply Ok_inj, pair_equal_spec in E. destruct E as [<- <-]. pose proof (go_mono _ _ _ _ Gk Ek) as M2. pose proof (go_mono _ _ _ _ Gl El) as M3. pose proof (round_le L2) as M4.
      assert (B1 : forall k, lim k L1 <= top k) by (intros j; specialize (M1 j); specialize (M2 j); specialize (M3 j); specialize (M4 j); specialize (HT j); lia).
      assert (B2 : forall k, lim k L2 <= top k) by (intros j; specialize (M3 j); specialize (M4 j); specialize (HT j); lia).
      assert (B3 : forall k, 0 <= lim k L1) by (intros j; specialize (M1 j); specialize (H0 j); lia).
      assert (B4 : forall k, 0 <= lim k (round L2)) by (intros j; specialize (M2 j); specialize (M4 j); specialize (B3 j); lia).
      destruct (IHy (h_sec x) ks L1 kids L2 Zk Fk Ek B3 B2) as [K1 K2]. destruct (IHl n zs' (round L2) rest L3 Z' Fl El B4 HT) as [Q1 Q2].
      assert (Ty1 : h_type x = 1). { destruct Ty as [Ty|Ty]; [|exact Ty]. unfold is_bridge in Bx. rewrite Ty in Bx. discriminate Bx. }
      destruct (Rg eq_refl) as (G1 & G2 & G3). cbn [net_bars] in T.
      destruct (configure_bridge n x own r p L L1 f lay Bx Ty1 G1 G2 G3 D1 D2 La T Se (Wh eq_refl) eq_refl eq_refl Ef (fits_within _ _ _ Ch H0 B1) (setup_range _ _ _ Er)) as (C1 & C2 & C3 & C4). cbv zeta in *.
      rewrite zip3_cons. cbn [configure_net]. split; constructor; try assumption.
      * apply addressed_bridge; [exact C1|exact C2|exact C4|exact K1].
      * apply numbered_eq. split; [exact C1|]. split; [symmetry; exact Bx|]. split; [destruct C2 as (lay' & U1 & U2 & _); exists lay'; auto|]. split; [exact C3|exact K2].
    + destruct (go_assign (map (view n) l) L1) as [[rest L3]|] eqn:El; [|discriminate E]. cbn [bind] in E. apply Ok_inj, pair_equal_spec in E. destruct E as [<- <-].
      pose proof (go_mono _ _ _ _ Gl El) as M3. assert (B1 : forall k, lim k L1 <= top k) by (intros j; specialize (M1 j); specialize (M3 j); specialize (HT j); lia).
      assert (B3 : forall k, 0 <= lim k L1) by (intros j; specialize (M1 j); specialize (H0 j); lia).
      destruct (IHl n zs' L1 rest L3 Z' Fl El B3 HT) as [Q1 Q2]. cbn [net_bars] in T.
      destruct (configure_leaf n x own p L L1 f lay Bx Ty D1 D2 La T Se eq_refl eq_refl Ef (fits_within _ _ _ Ch H0 B1)) as (C1 & C2). cbv zeta in *.
      rewrite zip3_cons. cbn [configure_net]. split; constructor; try assumption.
      * cbn [addressed]. split; [exact C1|]. split; [exact C2|reflexivity].
      * apply numbered_eq. split; [exact C1|]. split; [symmetry; exact Bx|]. split; [destruct C2 as (lay' & U1 & U2 & _); exists lay'; auto|]. assert (Ek : k = []) by (apply Le; destruct Ty as [Ty|Ty]; [exact Ty|]; unfold is_bridge in Bx; rewrite Ty in Bx; discriminate Bx). subst k. split; reflexivity.
Qed.

(** ** Enumeration *)
Lemma shown_forget y : forall y' z, forget y' = forget y -> shown y z -> shown y' z.
Proof.
  induction y as [x l IH] using hw_rect'. intros [x' l'] [f br ks] E S. apply shown_eq in S. apply shown_eq. cbn [forget] in E. injection E as E1 E2 E3 E4 E5 E6 E7 E8 E9.
  assert (Bx : is_bridge x' = is_bridge x) by (unfold is_bridge; rewrite E4; reflexivity). rewrite Bx, E1, E2, E7, E8.
  destruct S as (S1 & S2 & S3 & S4 & S5 & S6 & S7 & S8). repeat (split; [assumption|]). clear - IH E9 S8. revert l' E9. induction S8 as [|y z l ks S _ IHS]; intros [|y' l'] E; try discriminate E; constructor.
  - injection E as E1 E2. inversion IH; subst. auto.
  - injection E as E1 E2. inversion IH; subst. auto.
Qed.
Definition typed (y : hw) : Prop := (h_type (hw_fn y) = 0 \/ h_type (hw_fn y) = 1) /\ (h_type (hw_fn y) = 0 -> hw_below y = []).
Lemma typed_forget y : forall y', forget y' = forget y -> hw_all typed y -> hw_all typed y'.
Proof.
  induction y as [x l IH] using hw_rect'. intros [x' l'] E T. apply hw_all_eq in T. apply hw_all_eq. destruct T as [[T1 T2] Tl]. cbn [hw_fn hw_below] in *. cbn [forget] in E. injection E as E1 E2 E3 E4 E5 E6 E7 E8 E9. split.
  - split; cbn [hw_fn hw_below]; rewrite E4; [exact T1|]. intros Q. rewrite (T2 Q) in E9. destruct l'; [reflexivity|discriminate E9].
  - clear - IH E9 Tl. revert l' E9. induction Tl as [|y l S _ IHS]; intros [|y' l'] E; try discriminate E; constructor; injection E as E1 E2; inversion IH; subst; auto.
Qed.
Lemma good_typed y : hw_all good_node y -> Forall (hw_all typed) (hw_below y).
Proof.
  induction y as [x l IH] using hw_rect'. intros G. apply hw_all_eq in G. destruct G as [G Gl]. cbn [hw_below]. destruct G as (_ & _ & Gf & _). cbn [hw_below] in Gf. rewrite Forall_forall in *. intros [x' l'] Iy.
  apply hw_all_eq. split.
  - pose proof (Gf _ Iy) as (_ & _ & _ & Ty & _). pose proof (Gl _ Iy) as Gy. apply hw_all_eq in Gy. destruct Gy as [[Gy _] _]. split; [exact Ty|exact Gy].
  - exact (IH _ Iy (Gl _ Iy)).
Qed.
Definition in_range (y : hw) : Prop := is_bridge (hw_fn y) = true -> 0 <= h_pri (hw_fn y) < 2 ^ 8 /\ 0 <= h_sec (hw_fn y) < 2 ^ 8 /\ 0 <= h_sub (hw_fn y) < 2 ^ 8.
Lemma all_range y : forall n, 0 <= n < 2 ^ 8 -> Forall (hw_all ranged) (hw_below y) -> ordered n (hw_below y) -> (forall b, In b (flat_map buses (hw_below y)) -> b < 2 ^ 8) ->
  Forall (hw_all in_range) (hw_below y).
Proof.
  induction y as [x l IH] using hw_rect'. cbn [hw_below]. intros n Hn R [_ O] B. rewrite Forall_forall in *. intros [x' l'] Iy. pose proof (R _ Iy) as Ry. apply hw_all_eq in Ry. destruct Ry as [Ry Rl].
  pose proof (O _ Iy) as Oy. cbn [hw_fn] in Oy. destruct (is_bridge x') eqn:Bx.
  - destruct (Oy eq_refl) as [Op Os]. pose proof (ranged_buses _ Ry Bx (proj2 Os)) as Bu. cbn [hw_fn] in Bu.
    assert (Sb : h_sub x' < 2 ^ 8). { apply B. apply in_flat_map. exists (Hw x' l'). split; [exact Iy|]. rewrite Bu. apply in_interval. lia. }
    unfold ranged in Ry. cbn [hw_fn hw_below] in Ry. rewrite Bx in Ry. destruct Ry as [Ry1 Ry2]. apply hw_all_eq. split; [intros _; cbn [hw_fn]; lia|].
    apply (IH _ Iy (h_sec x') ltac:(lia)); cbn [hw_below]; [exact Rl|exact Ry2|]. intros b Ib. rewrite Ry1 in Ib. apply in_interval in Ib. lia.
  - unfold ranged in Ry. cbn [hw_fn hw_below] in Ry. rewrite Bx in Ry. subst l'. apply hw_all_eq. split; [unfold in_range; cbn [hw_fn]; congruence|constructor].
Qed.
Lemma all_and P Q y : hw_all P y -> hw_all Q y -> hw_all (fun y => P y /\ Q y) y.
Proof.
  induction y as [x l IH] using hw_rect'. rewrite !hw_all_eq. intros [A B] [C D]. split; [auto|]. rewrite Forall_forall in *. intros y I. apply IH; auto.
Qed.
Lemma all_weak (P Q : hw -> Prop) y : (forall y, P y -> Q y) -> hw_all P y -> hw_all Q y.
Proof. intros H. induction y as [x l IH] using hw_rect'. rewrite !hw_all_eq. intros [A B]. split; [auto|]. rewrite Forall_forall in *. auto. Qed.

Lemma enumerated_fine m h h' b zs : good_system m h -> scan_root m h = Ok (h', b) -> Forall2 shown (hw_below h) zs ->
  b = PBus 0 0 (bridges h - 1) (map (view 0) (hw_below h')) /\ h_sec (hw_fn h') = 0 /\ Forall (hw_all fine) (hw_below h') /\ Forall2 shown (hw_below h') zs.
Proof.
  intros G Sc Z. assert (Le : bridges h <= 256). { pose proof (scan_system m h G) as SS. destruct (bridges h <=? 256) eqn:Le; [lia|]. rewrite Sc in SS. discriminate SS. }
  destruct (enumerated m h G Le) as (h1 & E1 & Fo & Li & Bu & O & Rg & _). rewrite Sc in E1. injection E1 as <- ->. split; [reflexivity|]. pose proof G as G'. destruct G' as (_ & _ & _ & G1 & _ & _ & Gn & _).
  split; [destruct Li as (v & ->); exact G1|]. destruct h as [x l], h' as [x' l']. cbn [hw_below hw_fn] in *.
  assert (Fl : map forget l' = map forget l) by (cbn [forget] in Fo; injection Fo; auto). split.
  - assert (Bd : forall b0, In b0 (flat_map buses l') -> b0 < 2 ^ 8).
    { intros b0 Ib. assert (In b0 (buses (Hw x' l'))) as Ib' by (cbn [buses]; apply in_or_app; right; exact Ib). rewrite Bu in Ib'. apply in_interval in Ib'. lia. }
    pose proof (all_range (Hw x' l') 0 ltac:(lia) Rg O Bd) as AR. cbn [hw_below] in AR. pose proof (good_typed _ Gn) as GT. cbn [hw_below] in GT.
    clear - AR GT Fl. revert l Fl GT. induction AR as [|y l' A _ IH]; intros [|y0 l] E GT; try discriminate E; constructor; injection E as E1 E2; inversion GT; subst.
    + apply (all_weak (fun y => typed y /\ in_range y)); [intros ? [[? ?] ?]; split; [|split]; assumption|]. apply all_and; [|exact A]. apply (typed_forget y0); assumption.
    + apply (IH l); assumption.
  - clear - Z Fl. revert l' Fl. induction Z as [|y z l zs S _ IH]; intros [|y' l'] E; try discriminate E; constructor; injection E as E1 E2; [apply (shown_forget y); assumption|auto].
Qed.
Lemma setup_tree m h h' b l n l' zs : good_system m h -> scan_root m h = Ok (h', b) -> Forall2 shown (hw_below h) zs -> assign_bus b l = Ok (n, l') ->
  (forall k, 0 <= lim k l) -> (forall k, lim k l' <= top k) ->
  let zs' := zip3 (configure_net (h_sec (hw_fn h'))) (hw_below h') n zs in
  tree_ok b /\ Forall2 addressed n zs' /\ Forall2 (numbered 0) (hw_below h') zs'.
Proof.
  intros G Sc Z E H0 HT. cbv zeta. destruct (enumerated_fine m h h' b zs G Sc Z) as (-> & S0 & F & Z'). rewrite S0. split; [exact (shown_all_ok 0 _ _ Z' F)|].
  exact (setup_all h' 0 zs l n l' Z' F E H0 HT).
Qed.
Lemma host_opened l l' f : host_like f -> host_like (open_host l l' f) /\ (forall k, SpecAssign.windows (open_host l l' f) k = (lim k l, lim k l')).
Proof.
  intros (A & B & C). split; [|intros []; reflexivity]. split; [exact A|]. split; [|exact C]. apply (laid_frame (f_attr f)); [|exact B]. intros j Hj. change (total_slots [None; None]) with 2 in Hj.
  assert (Cj : j = 0 \/ j = 1) by lia. destruct Cj as [-> | ->]; split; reflexivity.
Qed.

(** ** The results *)
Lemma ids_of n y z : numbered n y z -> map (fun e => f_id (fst e)) (net_fns z) = map number (functions n y).
Proof.
  revert n z. induction y as [x l IH] using hw_rect'. intros n [f br l'] N. apply numbered_eq in N. destruct N as (N1 & _ & _ & N). cbn [net_fns functions map]. f_equal; [exact N1|]. destruct br.
  - destruct N as [_ N]. revert IH. induction N as [|y z l l' Ny _ IHN]; intros IH; [reflexivity|]. inversion IH as [|? ? IH1 IH2]; subst. cbn [flat_map]. rewrite !map_app. f_equal; auto.
  - destruct N as [-> ->]. reflexivity.
Qed.
Lemma ids_all n l zs : Forall2 (numbered n) l zs -> map (fun e => f_id (fst e)) (flat_map net_fns zs) = map number (flat_map (functions n) l).
Proof. induction 1 as [|y z l zs N _ IH]; [reflexivity|]. cbn [flat_map]. rewrite !map_app. f_equal; [exact (ids_of _ _ _ N)|exact IH]. Qed.

(** The tree after enumeration and assignment *)
Definition arranged (m : Z) (h : hw) (z : net) (l : lims) (h' : hw) (b : pbus) (n : list adev) (l' : lims) : Prop :=
  good_system m h /\ scan_root m h = Ok (h', b) /\ assign_bus b l = Ok (n, l') /\ (forall k, 0 < lim k l /\ lim k l' < top k) /\
  exists f zs', z = Net f true zs' /\ host_like f /\ (forall k, SpecAssign.windows f k = (lim k l, lim k l')) /\ tree_ok b /\ Forall2 addressed n zs' /\ Forall2 (numbered 0) (hw_below h') zs'.
Lemma up_arranged m h z l h' b n l' : brought_up m h z l h' b n l' -> arranged m h (set_up h' n l l' z) l h' b n l'.
Proof.
  intros (G & Sc & As & Li & f & zs & -> & H & Z). destruct (host_opened l l' f H) as [H1 H2]. split; [exact G|]. split; [exact Sc|]. split; [exact As|]. split; [exact Li|].
  exists (open_host l l' f). eexists. split; [reflexivity|]. split; [exact H1|]. split; [exact H2|].
  apply (setup_tree m h h' b l n l' zs G Sc Z As); intros k; specialize (Li k); lia.
Qed.
Section Up.
Context (m : Z) (h : hw) (z : net) (l : lims) (h' : hw) (b : pbus) (n : list adev) (l' : lims).
Hypothesis U : arranged m h z l h' b n l'.
Lemma up : exists f zs', z = Net f true zs' /\ host_like f /\ (forall k, SpecAssign.windows f k = (lim k l, lim k l')) /\
  tree_ok b /\ Forall2 addressed n zs' /\ Forall2 (numbered 0) (hw_below h') zs'.
Proof. destruct U as (_ & _ & _ & _ & H). exact H. Qed.
Lemma up_numbers : map (fun e => f_id (fst e)) (below z) = map number (below_functions h') /\ NoDup (map (fun e => f_id (fst e)) (below z)).
Proof.
  destruct up as (f & zs' & -> & _ & _ & _ & _ & N). cbn [below]. destruct U as (G & Sc & _). pose proof (enumerated_fine m h h' b) as _. 
  assert (S0 : h_sec (hw_fn h') = 0).
  { pose proof (scan_system m h G) as SS. destruct (bridges h <=? 256) eqn:Le; [|rewrite Sc in SS; discriminate SS]. destruct (enumerated m h G ltac:(lia)) as (h1 & E1 & _ & Li & _). rewrite Sc in E1. injection E1 as <- _.
    destruct G as (_ & _ & _ & G1 & _). destruct Li as (v & ->). exact G1. }
  assert (E : map (fun e => f_id (fst e)) (flat_map net_fns zs') = map number (below_functions h')) by (unfold below_functions; rewrite S0; exact (ids_all 0 _ _ N)).
  split; [exact E|]. rewrite E. destruct (found m h h' b G Sc) as [F1 F2]. rewrite <- F1. exact F2.
Qed.
Lemma up_ids t ty dst : tlp_check t = Ok true -> fmt_type t = Ok ty -> route_of ty t = TBus dst \/ route_of ty t = TBack dst -> dst <> mkId 0 0 0 -> 0 <= bus dst < 256 ->
  (In dst (map number (below_functions h')) -> exists g t', reach z t = Ok (Some (g, t')) /\ f_id g = dst /\ In g (map fst (below z)) /\ arrived t t') /\
  (~ In dst (map number (below_functions h')) -> reach z t = Ok None).
Proof.
  intros C T R D0 Hb. destruct up as (f & zs' & -> & H & _ & _ & _ & N). cbn [below]. destruct U as (G & Sc & _).
  destruct (ids m h h' b f zs' G Sc H N t ty dst C T D0 Hb) as [I1 I2]. destruct R as [R|R].
  - destruct (I1 R) as [J1 J2]. split; [|exact J2]. intros I. destruct (J1 I) as (g & E & Eg & Ig). exists g, (set_type_ 4 t). split; [exact E|]. split; [exact Eg|]. split; [exact Ig|].
    right. split; [reflexivity|]. destruct ty; try discriminate R; [left|right]; split; try exact T.
    + destruct (ProofsRoute.type0 t _ CFG_READ_0 T ltac:(auto)) as (<- & _ & E3). exact E3.
    + destruct (ProofsRoute.type0 t _ CFG_WRITE_0 T ltac:(auto)) as (<- & _ & E3). exact E3.
  - destruct (I2 R) as [J1 J2]. split; [|exact J2]. intros I. destruct (J1 I) as (g & E & Eg & Ig). exists g, t. split; [exact E|]. split; [exact Eg|]. split; [exact Ig|].
    left. split; [reflexivity|]. intros ty' T' J. rewrite T in T'. injection T' as <-. destruct J as [<-|[<-|[]]]; discriminate R.
Qed.
Lemma up_address t ty io x : tlp_check t = Ok true -> fmt_type t = Ok ty -> route_of ty t = TAddr io x -> 0 <= x < 2 ^ 64 ->
  (forall k, (granule k | lim k l)) -> apart l l' -> (forall p a, In (p, a) (flat_map bar_allocs n) -> decodes io x a) ->
  (forall p a, In (p, a) (flat_map bar_allocs n) -> holds io x a ->
    exists g nb j, reach z t = Ok (Some (g, t)) /\ In (g, nb) (below z) /\ f_id g = p_id p /\
      match_bar nb x io (f_attr g) = Ok (Some (j, x - a_addr a)) /\ a_reg a = 0x10 + 4 * j) /\
  ((forall p a, In (p, a) (flat_map bar_allocs n) -> ~ holds io x a) -> reach z t = Ok None).
Proof.
  intros C T R X Gr Ap D. destruct up as (f & zs' & -> & H & W & Tk & A & _). cbn [below]. destruct U as (_ & _ & As & Li & _).
  apply (addr_all t ty io x l b n l' f zs' C T R X); try assumption; [|apply H]. split; [exact Tk|]. split; [exact As|]. split; [intros k; specialize (Li k); specialize (Gr k); tauto|exact Ap].
Qed.
End Up.
