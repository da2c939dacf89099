(** Requests and completions across a tree that the host has set up. *)
From Verif Require Import Base BaseProofs SpecTlp SpecMem ModelUtils ModelTlp ModelAttrs ModelCapList ModelConfig ModelFunction ModelRegion ModelCompleter ModelRoute ModelEnum ModelAssign SpecBar SpecRoute
  SpecEnum SpecAssign ModelTree SpecTree ModelTreeUp SpecTreeUp ModelFabric SpecFabric ProofsBar ProofsUtils ProofsRoute ProofsAssign ProofsAssignFacts ProofsEnum ProofsEnumFacts ProofsMps ProofsTree ProofsTreeIds ProofsTreeAll ProofsTreeUp ProofsTreeUpAddr ProofsTreeUpIds ProofsTreeUpAll.

(** ** Places *)
Lemma locate_found z i : forall p, locate z i = Some p -> exists u, net_at z p = Some u /\ f_id (net_fn u) = i.
Proof.
  induction z as [f br l IH] using net_rect'. cbn [locate]. destruct (id_eqb (f_id f) i) eqn:E.
  - intros p Q. injection Q as <-. exists (Net f br l). split; [reflexivity|]. apply id_eqb_ok. exact E.
  - clear E. set (go := fix go (k : nat) (l : list net) : option (list nat) := match l with [] => None | c :: r => match locate c i with Some q => Some (k :: q) | None => go (S k) r end end).
    assert (G : forall r k0 p, Forall (fun z => forall p, locate z i = Some p -> exists u, net_at z p = Some u /\ f_id (net_fn u) = i) r -> go k0 r = Some p ->
      exists j q c u, p = (k0 + j)%nat :: q /\ nth_error r j = Some c /\ net_at c q = Some u /\ f_id (net_fn u) = i).
    { induction r as [|c r IHr]; intros k0 p F Q; cbn [go] in Q; fold go in Q; [discriminate Q|]. inversion F as [|? ? F1 F2]; subst. destruct (locate c i) as [q|] eqn:Eq.
      - injection Q as <-. destruct (F1 q eq_refl) as (u & A & B). exists 0%nat, q, c, u. rewrite Nat.add_0_r. auto.
      - destruct (IHr _ _ F2 Q) as (j & q & c' & u & -> & A & B). exists (S j), q, c', u. split; [f_equal; lia|]. auto. }
    intros p Q. destruct (G l 0%nat p IH Q) as (j & q & c & u & -> & A & B & D). exists u. cbn [net_at plus]. rewrite A. auto.
Qed.
Lemma locate_some z i : In i (map net_id (net_fns z)) -> locate z i <> None.
Proof.
  induction z as [f br l IH] using net_rect'. cbn [net_fns map locate]. change (net_id (f, net_bars br)) with (f_id f). intros [E|I].
  - rewrite E. replace (id_eqb i i) with true by (symmetry; apply id_eqb_ok; reflexivity). discriminate.
  - destruct (id_eqb (f_id f) i); [discriminate|]. rewrite map_flat in I.
    set (go := fix go (k : nat) (l : list net) : option (list nat) := match l with [] => None | c :: r => match locate c i with Some q => Some (k :: q) | None => go (S k) r end end).
    generalize 0%nat. induction IH as [|c r H _ IHr]; intros k; cbn [go flat_map] in *; [destruct I|]. fold go. destruct (locate c i) as [q|] eqn:Eq; [discriminate|]. apply in_app_or in I. destruct I as [I|I]; [destruct (H I eq_refl)|].
    apply IHr. exact I.
Qed.
Lemma at_fns z : forall q w, net_at z q = Some w -> match w with Net g br _ => In (g, net_bars br) (net_fns z) end.
Proof.
  assert (H : forall q z w, net_at z q = Some w -> match w with Net g br _ => In (g, net_bars br) (net_fns z) end); [|exact (fun q => H q z)]. clear z.
  induction q as [|k q IH]; intros [f br l] w E; cbn [net_at] in E.
  - injection E as <-. left. reflexivity.
  - destruct (nth_error l k) as [c|] eqn:Ek; [|discriminate E]. apply IH in E. destruct w as [g b' k']. cbn [net_fns]. right. apply in_flat_map. exists c. split; [exact (nth_error_In _ _ Ek)|exact E].
Qed.
Lemma once_in {A B} (f : A -> B) l x y : NoDup (map f l) -> In x l -> In y l -> f x = f y -> x = y.
Proof.
  induction l as [|a l IH]; intros N Ix Iy E; [destruct Ix|]. cbn [map] in N. inversion N as [|? ? N1 N2]; subst.
  destruct Ix as [<-|Ix], Iy as [<-|Iy]; auto; exfalso; apply N1; [rewrite E|rewrite <- E]; apply in_map; assumption.
Qed.
(** There is a way back from an endpoint. *)
Lemma way_back : forall p q sw z u g kids, net_at z p = Some u -> net_at z q = Some (Net g false kids) -> kids = [] -> p <> q -> way sw p q = true -> way sw q p = true.
Proof.
  induction p as [|i p IH]; intros [|j q] sw z u g kids P Q K N W; try discriminate W.
  - injection Q as Q. subst z. cbn [net_at] in P. rewrite K in P. destruct i; discriminate P.
  - cbn [way] in *. destruct z as [f br l]. cbn [net_at] in P, Q. rewrite Nat.eqb_sym. destruct (Nat.eqb_spec i j) as [->|Ne]; [|exact W]. destruct (nth_error l j) as [c|]; [|discriminate P].
    apply (IH q (negb sw) c u g kids); auto. congruence.
Qed.

Lemma way_self : forall q sw, way sw q q = false.
Proof. induction q as [|i r IH]; intros sw; [reflexivity|]. cbn [way]. rewrite Nat.eqb_refl. apply IH. Qed.

(** ** The base of a BAR is a multiple of its size, which is a power of two. *)
Lemma size_pow (G : Prop) l n l' : laid G l n l' -> forall zs, Forall2 addressed n zs -> forall e a, In (e, a) (flat_map bar_allocs n) -> exists m, a_size a = 2 ^ m.
Proof.
  assert (One : forall f nb own a, bars_at f nb own -> In a own -> is_bar a = true -> exists m, a_size a = 2 ^ m).
  { intros f nb own a (lay & _ & _ & E) Ia Ba. destruct (place_spot own lay a E Ia Ba) as ([[[i k] m] base] & _ & Ea). exists m. unfold place, spot in Ea. apply pair_equal_spec in Ea. destruct Ea as [_ Ea]. auto. }
  induction 1 as [l|l p own l1 r l2 C L IH|l p own l1 kids l2 regs r l3 C L IH HG E L2 IH2]; intros zs F e a I; [destruct I| |]; inversion F as [|? z ? zr A1 A2]; subst; destruct z as [f br ks]; cbn [addressed] in A1;
    destruct A1 as (_ & Ba & A1); cbn [flat_map bar_allocs] in I; rewrite ?app_nil_r in I; repeat (apply in_app_or in I; destruct I as [I|I]).
  - apply in_map_iff in I. destruct I as (a' & Q & I). injection Q as <- <-. apply filter_In in I. destruct I. eapply One; eauto.
  - eapply IH; eauto.
  - apply in_map_iff in I. destruct I as (a' & Q & I). injection Q as <- <-. apply filter_In in I. destruct I. eapply One; eauto.
  - destruct A1 as (_ & _ & A1). apply go_addressed in A1. eapply IH; eauto.
  - eapply IH2; eauto.
Qed.
Lemma pow_safe base m : 0 <= m -> (2 ^ m | base) -> page_safe base (2 ^ m).
Proof.
  intros Hm [c ->]. unfold page_safe. destruct (Z_le_gt_dec 12 m) as [H|H].
  - left. replace m with (12 + (m - 12)) by lia. rewrite Z.pow_add_r by lia. exists (c * 2 ^ (m - 12)). lia.
  - right. assert (E : 4096 = 2 ^ (12 - m) * 2 ^ m) by (rewrite <- Z.pow_add_r by lia; replace (12 - m + m) with 12 by lia; reflexivity).
    pose proof (Z.pow_pos_nonneg 2 m ltac:(lia) Hm). pose proof (Z.pow_pos_nonneg 2 (12 - m) ltac:(lia) ltac:(lia)). rewrite E at 1. rewrite Z.mul_mod_distr_r by lia.
    pose proof (Z.mod_pos_bound c (2 ^ (12 - m)) ltac:(lia)). rewrite E. nia.
Qed.

Section Up.
Context (m : Z) (h : hw) (z : net) (l : lims) (h' : hw) (b : pbus) (n : list adev) (l' : lims).
Hypothesis U : arranged m h z l h' b n l'.
Lemma locate_at p u : net_at z p = Some u -> locate z (f_id (net_fn u)) = Some p.
Proof.
  intros P. destruct (locate z (f_id (net_fn u))) as [p'|] eqn:E.
  - f_equal. destruct (locate_found _ _ _ E) as (u' & P' & E'). symmetry. exact (path_once m h z l h' b n l' U p p' u u' P P' (eq_sym E')).
  - destruct (locate_some z (f_id (net_fn u)) (at_in _ _ _ P) E).
Qed.
Lemma host_top : exists f zs, z = Net f true zs /\ f_id f = mkId 0 0 0.
Proof. destruct (up m h z l h' b n l' U) as (f & zs & E & (Hi & _) & _). eauto. Qed.
Lemma not_top p u : p <> [] -> net_at z p = Some u -> f_id (net_fn u) <> id0.
Proof. intros N P. apply (not_host m h z l h' b n l' U). apply (path_ids m h z l h' b n l' U). eauto. Qed.
Lemma travel_fn p u t : p <> [] -> net_at z p = Some u -> travel z (f_id (net_fn u)) t = from_function z p t.
Proof.
  intros N P. unfold travel. rewrite (locate_at p u P). destruct (id_eqb (f_id (net_fn u)) id0) eqn:E; [|reflexivity]. apply id_eqb_ok in E. destruct (not_top p u N P E).
Qed.
Lemma number_bus p u : p <> [] -> net_at z p = Some u -> 0 <= bus (f_id (net_fn u)) < 256.
Proof.
  intros N P. assert (I : In (f_id (net_fn u)) (map number (below_functions h'))) by (apply (path_ids m h z l h' b n l' U); eauto). revert I. generalize (f_id (net_fn u)). intros dst I.
  destruct (scanned m h z l h' b n l' U) as (S0 & _). pose proof U as (G & Sc & _). pose proof (scan_system m h G) as SS. destruct (bridges h <=? 256) eqn:Le; [|rewrite Sc in SS; discriminate SS].
  destruct (enumerated m h G ltac:(lia)) as (h1 & E1 & _ & Li & Bu & O & Rg & _). rewrite Sc in E1. injection E1 as <- _. unfold below_functions in I. rewrite S0 in I. rewrite map_flat in I. apply in_flat_map in I. destruct I as (y & Iy & I).
  rewrite functions_split in I. rewrite Forall_forall in Rg. destruct O as [_ O]. rewrite Forall_forall in O.
  destruct I as [I|I]; [rewrite <- I; cbn [number bus fst]; lia|]. destruct (below_bus 0 y dst (Rg y Iy) (fun Q => proj2 (O y Iy Q)) I) as [By Hy]. specialize (O y Iy By).
  assert (Ib : In (bus dst) (buses h')).
  { destruct h' as [x' k']. cbn [buses]. cbn [hw_below] in Iy. apply in_or_app. right. apply in_flat_map. exists y. split; [exact Iy|]. pose proof (Rg y Iy) as Ry. rewrite ranged_buses; [apply in_interval; lia|destruct y; apply hw_all_eq in Ry; tauto|exact By|lia]. }
  rewrite Bu in Ib. apply in_interval in Ib. lia.
Qed.

(** ** To a BAR and back *)
Lemma leaf_kids : forall q y w k g kids, numbered k y w -> net_at w q = Some (Net g false kids) -> kids = [].
Proof.
  induction q as [|i q IH]; intros [x hs] [f br ks] k g kids N Q; cbn [numbered] in N; destruct N as (_ & _ & _ & N); cbn [net_at] in Q.
  - injection Q as -> -> ->. apply N.
  - destruct (nth_error ks i) as [c|] eqn:E; [|discriminate Q]. destruct br; [|destruct N as [_ ->]; destruct i; discriminate E]. destruct N as [_ N].
    clear - N E Q IH. revert i ks N E. induction hs as [|y hs IHs]; intros i [|c' ks] N E; try contradiction; [destruct i; discriminate E|]. destruct N as [N1 N2]. destruct i as [|i]; [injection E as ->; eapply IH; eauto|]. eapply IHs; eauto.
Qed.
Hypothesis Ti : tidy b.
Hypothesis Gr : forall k, (granule k | lim k l).
Hypothesis Ap : apart l l'.
Definition returning (s : pcie_id) (c : tlp) : Prop := tlp_check c = Ok true /\ exists ty, fmt_type c = Ok ty /\ route_of ty c = TBack s.

Section Bar.
Context (io : bool) (e : pfn) (a : alloc) (q : list nat) (g : fnc) (j : Z).
Hypothesis B : bar_at z n io e a q g j.
Lemma bar_path : q <> [].
Proof. intros ->. destruct (ba_at _ _ _ _ _ _ _ _ B) as (kids & Q). destruct host_top as (f & zs & E & _). rewrite E in Q. discriminate Q. Qed.
Lemma bar_kids kids : net_at z q = Some (Net g false kids) -> kids = [].
Proof.
  intros Q. pose proof bar_path as N. destruct q as [|i q0]; [congruence|]. destruct (up m h z l h' b n l' U) as (f & zs & E & _ & _ & _ & _ & Nu). rewrite E in Q. cbn [net_at] in Q.
  destruct (nth_error zs i) as [c|] eqn:Ei; [|discriminate Q]. clear - Nu Ei Q. revert i Ei. induction Nu as [|y c' hs zs N1 _ IH]; intros i Ei; [destruct i; discriminate Ei|].
  destruct i as [|i]; [injection Ei as ->; eapply leaf_kids; eauto|eapply IH; eauto].
Qed.
Lemma bar_facts : 0 <= a_addr a /\ 0 < a_size a /\ a_addr a + a_size a <= 2 ^ 64 /\ page_safe (a_addr a) (a_size a).
Proof.
  destruct (up m h z l h' b n l' U) as (f & zs & _ & _ & _ & Tk & Ad & _). destruct U as (_ & _ & As & Li & _). pose proof (assign_laid b l n l' Tk As) as [L _].
  pose proof (ba_alloc _ _ _ _ _ _ _ _ B) as I. destruct (size_pow _ _ _ _ L zs Ad e a I) as (k & Ek). destruct (laid_facts _ _ _ _ L) as (_ & W & O & _). apply bars_in in I. destruct I as [I _].
  rewrite Forall_forall in W, O. destruct (W a I) as [W1 W2]. destruct (O a I) as (O1 & O2 & _). destruct (Li (a_kind a)) as [L1 L2]. assert (top (a_kind a) <= 2 ^ 64) by (destruct (a_kind a); cbn [top]; lia).
  split; [lia|]. split; [lia|]. split; [lia|]. rewrite Ek in *. apply pow_safe; [|exact O1]. destruct (Z.neg_nonneg_cases k) as [Hk|Hk]; [|exact Hk]. rewrite Z.pow_neg_r in O2 by lia. lia.
Qed.
Lemma bar_go s t ty : sender z s q -> tlp_check t = Ok true -> fmt_type t = Ok ty -> route_of ty t = TAddr io (address t) -> a_addr a <= address t < a_addr a + a_size a ->
  travel z s t = Ok (Stops g t) /\ match_bar 6 (address t) io (f_attr g) = Ok (Some (j, address t - a_addr a)).
Proof.
  intros Se C T R X. pose proof bar_facts as (F1 & F2 & F3 & _). assert (X64 : 0 <= address t < 2 ^ 64) by lia. pose proof bar_path as Nq.
  destruct B as [I K D (kids & Q) Gi Rg]. specialize (D _ X). assert (Ho : holds io (address t) a) by (split; assumption).
  destruct (proj1 (up_address m h z l h' b n l' U t ty io (address t) C T R X64 Gr Ap D) e a I Ho) as (g1 & nb & j1 & Re & Ig & Gi1 & Mb & Rg1).
  assert (E : (g1, nb) = (g, 6)).
  { destruct (up_numbers m h z l h' b n l' U) as [_ ND]. apply (once_in _ _ _ _ ND Ig); [|cbn [fst]; congruence]. destruct host_top as (f & zs & E & _). rewrite E in *. destruct q as [|i q0]; [congruence|]. cbn [net_at] in Q.
    destruct (nth_error zs i) as [c|] eqn:Ei; [|discriminate Q]. cbn [below]. apply in_flat_map. exists c. split; [exact (nth_error_In _ _ Ei)|]. exact (at_fns _ _ _ Q). }
  injection E as -> ->. assert (j1 = j) by lia. subst j1. split; [|exact Mb]. destruct Se as [->|(p & u & Np & P & <- & W)].
  - unfold travel. change (id_eqb id0 id0) with true. cbn match. rewrite Re. reflexivity.
  - rewrite (travel_fn p u t Np P). destruct (up_request m h z l h' b n l' U t ty io (address t) p u C T R X64 Ti Gr Ap D Np P) as [H _]. rewrite (H e a q _ I Ho Nq Q Gi), W. reflexivity.
Qed.
Lemma bar_back s cs : sender z s q -> Forall (returning s) cs -> back z (f_id g) s cs = Ok cs.
Proof.
  intros Se F. pose proof bar_path as Nq. destruct B as [_ _ _ (kids & Q) _ _]. pose proof (bar_kids kids Q) as K. induction F as [|c cs (C & ty & T & R) F IH]; [reflexivity|]. cbn [back]. rewrite IH.
  change (f_id g) with (f_id (net_fn (Net g false kids))). rewrite (travel_fn q _ c Nq Q). destruct (up_back m h z l h' b n l' U c ty s q _ C T R Nq Q) as (H1 & H2 & _). destruct Se as [->|(p & u & Np & P & Es & W)].
  - rewrite H1 by reflexivity. reflexivity.
  - rewrite (H2 p u Np P Es). assert (Wb : way true q p = true).
    { assert (Pq : p <> q) by (intros Pq; rewrite Pq in W; rewrite way_self in W; discriminate W). exact (way_back p q true z u g kids P Q K Pq W). }
    rewrite Wb. cbn [bind]. replace (id_eqb (f_id (net_fn u)) s) with true by (symmetry; apply id_eqb_ok; exact Es). reflexivity.
Qed.
End Bar.

(** ** To the host and back *)
Section Host.
Context (p : list nat) (u : net).
Hypothesis Np : p <> [].
Hypothesis P : net_at z p = Some u.
Lemma host_go t ty io : tlp_check t = Ok true -> fmt_type t = Ok ty -> route_of ty t = TAddr io (address t) -> 0 <= address t < 2 ^ 64 ->
  (forall e a, In (e, a) (flat_map bar_allocs n) -> decodes io (address t) a) -> (forall k, io_kind k = io -> ~ lim k l <= address t <= lim k l') ->
  travel z (f_id (net_fn u)) t = Ok (Passes t).
Proof. intros C T R X D N. rewrite (travel_fn p u t Np P). apply (up_request m h z l h' b n l' U t ty io (address t) p u C T R X Ti Gr Ap D Np P). exact N. Qed.
Lemma host_back cs : Forall (returning (f_id (net_fn u))) cs -> back z id0 (f_id (net_fn u)) cs = Ok cs.
Proof.
  intros F. induction F as [|c cs (C & ty & T & R) F IH]; [reflexivity|]. cbn [back]. rewrite IH. unfold travel. change (id_eqb id0 id0) with true. cbn match.
  destruct (up_ids m h z l h' b n l' U c ty (f_id (net_fn u)) C T (or_intror R) (not_top p u Np P) (number_bus p u Np P)) as [H _].
  destruct H as (g & c' & E & Eg & _ & Ar); [apply (path_ids m h z l h' b n l' U); eauto|]. rewrite E. cbn [bind]. rewrite Eg. replace (id_eqb _ _) with true by (symmetry; apply id_eqb_ok; reflexivity).
  destruct Ar as [[-> _]|[_ [[T' _]|[T' _]]]]; [reflexivity| |]; rewrite T in T'; injection T' as ->; discriminate R.
Qed.
End Host.
End Up.
