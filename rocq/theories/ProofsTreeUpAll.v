(** What a function sends, after enumeration and assignment. *)
From Verif Require Import Base BaseProofs ModelUtils ModelTlp ModelAttrs ModelCapList ModelConfig ModelFunction ModelRoute ModelEnum ModelAssign SpecBar SpecRoute
  SpecEnum SpecAssign ModelTree SpecTree ModelTreeUp SpecTreeUp ProofsBar ProofsUtils ProofsRoute ProofsAssign ProofsAssignFacts ProofsEnum ProofsEnumFacts ProofsMps ProofsTree ProofsTreeIds ProofsTreeAll
  ProofsTreeUp ProofsTreeUpAddr ProofsTreeUpIds.

(** ** Paths *)
Lemma net_rect' (P : net -> Prop) : (forall f br l, Forall P l -> P (Net f br l)) -> forall z, P z.
Proof.
  intros H. fix IH 1. intros [f br l]. apply H. induction l as [|z l IHl]; constructor; [apply IH|exact IHl].
Qed.
Definition net_id (e : fnc * Z) : pcie_id := f_id (fst e).
Lemma at_in z : forall q w, net_at z q = Some w -> In (f_id (net_fn w)) (map net_id (net_fns z)).
Proof.
  assert (H : forall q z w, net_at z q = Some w -> In (f_id (net_fn w)) (map net_id (net_fns z))); [|exact (fun q => H q z)]. clear z.
  induction q as [|k q IH]; intros [f br l] w E; cbn [net_at] in E.
  - injection E as <-. left. reflexivity.
  - destruct (nth_error l k) as [c|] eqn:Ek; [|discriminate E]. cbn [net_fns map]. right. apply IH in E. apply in_map_iff in E. destruct E as (e & Ee & Ie). apply in_map_iff. exists e. split; [exact Ee|].
    apply in_flat_map. exists c. split; [exact (nth_error_In _ _ Ek)|exact Ie].
Qed.
Lemma in_at z d : In d (map net_id (net_fns z)) -> exists q w, net_at z q = Some w /\ f_id (net_fn w) = d.
Proof.
  induction z as [f br l IH] using net_rect'. cbn [net_fns map]. intros [E|I].
  - exists [], (Net f br l). split; [reflexivity|exact E].
  - apply in_map_iff in I. destruct I as (e & <- & I). apply in_flat_map in I. destruct I as (c & Ic & I). rewrite Forall_forall in IH. destruct (IH c Ic ltac:(apply in_map; exact I)) as (q & w & E & Ei).
    apply In_nth_error in Ic. destruct Ic as [k Ek]. exists (k :: q), w. cbn [net_at]. rewrite Ek. auto.
Qed.
Lemma nodup_apart {A B} (g : A -> list B) l : NoDup (flat_map g l) -> forall i j a b x, nth_error l i = Some a -> nth_error l j = Some b -> In x (g a) -> In x (g b) -> i = j.
Proof.
  induction l as [|c l IH]; intros ND i j a b x Ei Ej Ia Ib; [destruct i; discriminate Ei|]. cbn [flat_map] in ND.
  assert (Dj : forall y, In y (g c) -> ~ In y (flat_map g l)).
  { clear - ND. induction (g c) as [|v s IH]; intros y Iy; [destruct Iy|]. cbn [app] in ND. inversion ND as [|? ? N1 N2]; subst. destruct Iy as [->|Iy]; [|exact (IH N2 y Iy)]. intros Q. apply N1. apply in_or_app. auto. }
  assert (ND2 : NoDup (flat_map g l)) by (clear - ND; induction (g c) as [|v s IH]; [exact ND|]; inversion ND; auto).
  assert (In' : forall k d, nth_error l k = Some d -> In x (g d) -> In x (flat_map g l)) by (intros k d E I; apply in_flat_map; exists d; split; [exact (nth_error_In _ _ E)|exact I]).
  destruct i as [|i], j as [|j]; cbn [nth_error] in Ei, Ej; [reflexivity| | |].
  - injection Ei as ->. exfalso. exact (Dj x Ia (In' _ _ Ej Ib)).
  - injection Ej as ->. exfalso. exact (Dj x Ib (In' _ _ Ei Ia)).
  - f_equal. exact (IH ND2 i j a b x Ei Ej Ia Ib).
Qed.
Lemma map_flat {A B C} (g : B -> C) (h : A -> list B) l : map g (flat_map h l) = flat_map (fun a => map g (h a)) l.
Proof. induction l as [|a l IH]; [reflexivity|]. cbn [flat_map]. rewrite map_app, IH. reflexivity. Qed.
Lemma nodup_one {A B} (g : A -> list B) l : NoDup (flat_map g l) -> forall a, In a l -> NoDup (g a).
Proof.
  induction l as [|c l IH]; intros ND a Ia; [destruct Ia|]. cbn [flat_map] in ND. destruct Ia as [->|Ia].
  - clear - ND. induction (g a) as [|v s IH]; [constructor|]. cbn [app] in ND. inversion ND as [|? ? N1 N2]; subst. constructor; [|exact (IH N2)]. intros Q. apply N1. apply in_or_app. auto.
  - apply IH; [|exact Ia]. clear - ND. induction (g c) as [|v s IH]; [exact ND|]. inversion ND; auto.
Qed.
Lemma at_once : forall q z q' w w', NoDup (map net_id (net_fns z)) -> net_at z q = Some w -> net_at z q' = Some w' -> f_id (net_fn w) = f_id (net_fn w') -> q = q'.
Proof.
  assert (Out : forall f br l k q w, NoDup (map net_id (net_fns (Net f br l))) -> net_at (Net f br l) (k :: q) = Some w -> f_id f <> f_id (net_fn w)).
  { intros f br l k q w ND E Q. cbn [net_fns map] in ND. inversion ND as [|? ? N1 N2]; subst. apply N1. cbn [net_at] in E. destruct (nth_error l k) as [c|] eqn:Ek; [|discriminate E].
    apply at_in in E. change (net_id (f, net_bars br)) with (f_id f). rewrite Q, map_flat. apply in_flat_map. exists c. split; [exact (nth_error_In _ _ Ek)|exact E]. }
  induction q as [|k q IH]; intros [f br l] q' w w' ND E E' Q; destruct q' as [|k' q'].
  - reflexivity.
  - injection E as <-. exfalso. exact (Out _ _ _ _ _ _ ND E' Q).
  - injection E' as <-. exfalso. exact (Out _ _ _ _ _ _ ND E (eq_sym Q)).
  - cbn [net_at] in E, E'. destruct (nth_error l k) as [c|] eqn:Ek; [|discriminate E]. destruct (nth_error l k') as [c'|] eqn:Ek'; [|discriminate E'].
    cbn [net_fns map] in ND. inversion ND as [|? ? _ N2]; subst. rewrite map_flat in N2. pose proof (at_in _ _ _ E) as I. pose proof (at_in _ _ _ E') as I'. rewrite <- Q in I'.
    assert (k = k') by exact (nodup_apart _ l N2 k k' c c' _ Ek Ek' I I'). subst k'. rewrite Ek in Ek'. injection Ek' as <-. f_equal.
    apply (IH c q' w w'); auto. exact (nodup_one _ l N2 c (nth_error_In _ _ Ek)).
Qed.

Section Up.
Context (m : Z) (h : hw) (z : net) (l : lims) (h' : hw) (b : pbus) (n : list adev) (l' : lims).
Hypothesis U : arranged m h z l h' b n l'.
Lemma scanned : h_sec (hw_fn h') = 0 /\ ordered 0 (hw_below h') /\ Forall (hw_all ranged) (hw_below h') /\ Forall (fun y => 1 <= h_d (hw_fn y)) (hw_below h') /\ NoDup (map number (below_functions h')).
Proof.
  destruct U as (G & Sc & _). assert (ND : NoDup (map number (below_functions h'))) by (destruct (ProofsMps.found m h h' b G Sc) as [F1 F2]; rewrite <- F1; exact F2).
  pose proof (scan_system m h G) as SS. destruct (bridges h <=? 256) eqn:Le; [|rewrite Sc in SS; discriminate SS].
  destruct (enumerated m h G ltac:(lia)) as (h1 & E1 & Fo & Li & _ & O & Rg & _). rewrite Sc in E1. injection E1 as <- _. destruct Li as (v & Ev). destruct G as (_ & _ & _ & G1 & _ & _ & _ & G3).
  split; [rewrite Ev; exact G1|]. split; [exact O|]. split; [exact Rg|]. split; [|exact ND]. clear - Fo G3.
  assert (E : map forget (hw_below h') = map forget (hw_below h)) by (destruct h, h'; cbn [forget] in Fo; exact (f_equal hw_below Fo)). clear Fo. revert E. generalize (hw_below h'). induction G3 as [|y k [D _] _ IH]; intros [|y' k'] E; try discriminate E; constructor.
  - apply (f_equal (@hd hw y)) in E. cbn [map hd] in E. apply (f_equal (fun w => h_d (hw_fn w))) in E. destruct y as [u ?], y' as [u' ?]. cbn in E, D. cbn [hw_fn]. lia.
  - apply IH. exact (f_equal (@tl hw) E).
Qed.
Lemma not_host dst : In dst (map number (below_functions h')) -> dst <> mkId 0 0 0.
Proof.
  destruct scanned as (S0 & [_ O] & Rg & D & _). intros I ->. unfold below_functions in I. rewrite S0, map_flat in I. apply in_flat_map in I. destruct I as (y & Iy & I). rewrite functions_split in I. rewrite Forall_forall in O, Rg, D.
  destruct I as [I|I].
  - injection I as I _. specialize (D y Iy). lia.
  - destruct (below_bus 0 y _ (Rg y Iy) (fun Q => proj2 (O y Iy Q)) I) as [B Hb]. cbn [bus] in Hb. specialize (O y Iy B). lia.
Qed.
Lemma path_ids dst : (In dst (map number (below_functions h')) <-> exists q w, q <> [] /\ net_at z q = Some w /\ f_id (net_fn w) = dst).
Proof.
  destruct (up_numbers m h z l h' b n l' U) as [E _]. rewrite <- E. destruct (up m h z l h' b n l' U) as (f & zs & -> & _). cbn [below]. fold net_id. split.
  - intros I. change (fun e : fnc * Z => f_id (fst e)) with net_id in I. rewrite map_flat in I. apply in_flat_map in I. destruct I as (c & Ic & I). apply in_at in I. destruct I as (q & w & Q & Ei). apply In_nth_error in Ic. destruct Ic as [k Ek].
    exists (k :: q), w. split; [discriminate|]. cbn [net_at]. rewrite Ek. auto.
  - intros (q & w & Nq & Q & <-). destruct q as [|k q]; [congruence|]. cbn [net_at] in Q. destruct (nth_error zs k) as [c|] eqn:Ek; [|discriminate Q]. change (fun e : fnc * Z => f_id (fst e)) with net_id. rewrite map_flat. apply in_flat_map. exists c.
    split; [exact (nth_error_In _ _ Ek)|exact (at_in _ _ _ Q)].
Qed.
Lemma path_once q q' w w' : net_at z q = Some w -> net_at z q' = Some w' -> f_id (net_fn w) = f_id (net_fn w') -> q = q'.
Proof.
  apply at_once. destruct (up_numbers m h z l h' b n l' U) as [E ND]. rewrite E in ND. assert (No : ~ In (mkId 0 0 0) (map number (below_functions h'))) by (intros I; exact (not_host _ I eq_refl)). rewrite <- E in No, ND.
  destruct (up m h z l h' b n l' U) as (f & zs & Ez & (Hi & _) & _). rewrite Ez in *. cbn [below] in *. cbn [net_fns map]. constructor; [|exact ND]. change (net_id (f, net_bars true)) with (f_id f). rewrite Hi. exact No.
Qed.

(** ** Completions *)
Lemma up_back t ty dst p y : tlp_check t = Ok true -> fmt_type t = Ok ty -> route_of ty t = TBack dst -> p <> [] -> net_at z p = Some y ->
  (dst = mkId 0 0 0 -> from_function z p t = Ok (Passes t)) /\
  (forall q w, q <> [] -> net_at z q = Some w -> f_id (net_fn w) = dst -> from_function z p t = Ok (if way true p q then Stops (net_fn w) t else Drops)) /\
  (dst <> mkId 0 0 0 -> 0 <= bus dst < 256 -> ~ In dst (map number (below_functions h')) -> from_function z p t = Ok Drops).
Proof.
  intros C T R Np P. destruct p as [|k p]; [congruence|]. destruct scanned as (S0 & Od & Rg & _ & ND). assert (N : route_of ty t <> TNone) by congruence. assert (NC : local_cfg (route_of ty t) = false) by (rewrite R; reflexivity).
  pose proof (path_ids dst) as PI. pose proof not_host as NH. pose proof path_once as PO. destruct (up m h z l h' b n l' U) as (f & zs & Ez & (Hi & Hl & Hb) & _ & _ & _ & Nu). rewrite Ez in *. clear Ez.
  assert (B : bars f 2 [None; None] (route_of ty t)) by (rewrite R; apply bars_back; auto).
  assert (Ob : SpecRoute.own f [None; None] (route_of ty t) = id_eqb (mkId 0 0 0) dst) by (rewrite R, own_back, Hi; reflexivity).
  assert (Bf : below_functions h' = flat_map (functions 0) (hw_below h')) by (unfold below_functions; rewrite S0; reflexivity). rewrite Bf in *.
  assert (Bh : dst <> mkId 0 0 0 -> 0 <= bus dst < 256 -> behind f (route_of ty t) = true) by (intros D0 Hd; rewrite R; cbn [behind]; rewrite (behind_bus dst D0 f _ _ Hb); lia).
  assert (Oh : dst <> mkId 0 0 0 -> SpecRoute.own f [None; None] (route_of ty t) = false) by (intros D0; rewrite Ob; apply eqb_no; congruence).
  split; [|split].
  - intros ->. destruct (host_leads t ty C T N NC None f _ zs k p y B) as (v & E & Cv); try discriminate; auto.
    + intros i c E. cbn [under]. rewrite R. apply blind_host; [reflexivity|]. refine (all_unnumbered _ 0 _ _ Nu _ i c E). intros I. exact (NH _ I eq_refl).
    + rewrite Ob. reflexivity.
    + cbn [comes] in Cv. subst v. exact E.
  - intros q w Nq Q Ei. assert (I : In dst (map number (flat_map (functions 0) (hw_below h')))) by (apply PI; eauto). pose proof (NH dst I) as D0.
    destruct (all_numbered dst D0 0 _ zs Rg Od Nu ND I) as (j & q1 & c & w1 & E1 & L1 & A & Ei1 & Rest).
    assert (Eq : j :: q1 = q) by (apply (PO (j :: q1) q w1 w); [cbn [net_at]; rewrite E1; exact A|exact Q|congruence]). subst q.
    assert (Hd : 0 <= bus dst < 256).
    { clear - I U S0 Bf. destruct U as (G & Sc & _). pose proof (scan_system m h G) as SS. destruct (bridges h <=? 256) eqn:Le; [|rewrite Sc in SS; discriminate SS].
      destruct (enumerated m h G ltac:(lia)) as (h1 & E1 & _ & Li & Bu & O & Rg & _). rewrite Sc in E1. injection E1 as <- _. rewrite map_flat in I. apply in_flat_map in I. destruct I as (y & Iy & I). rewrite functions_split in I. rewrite Forall_forall in Rg. destruct O as [_ O]. rewrite Forall_forall in O.
      destruct I as [I|I]; [rewrite <- I; cbn [number bus fst]; lia|]. destruct (below_bus 0 y dst (Rg y Iy) (fun Q => proj2 (O y Iy Q)) I) as [By Hy]. specialize (O y Iy By).
      assert (Ib : In (bus dst) (buses h')).
      { destruct h' as [x' k']. cbn [buses]. cbn [hw_below] in Iy. apply in_or_app. right. apply in_flat_map. exists y. split; [exact Iy|]. pose proof (Rg y Iy) as Ry. rewrite ranged_buses; [apply in_interval; lia|destruct y; apply hw_all_eq in Ry; tauto|exact By|lia]. }
      rewrite Bu in Ib. apply in_interval in Ib. lia. }
    destruct (host_leads t ty C T N NC (Some (j :: q1)) f _ zs k p y B) as (v & E & Cv); try discriminate; auto.
    + intros i c' E. rewrite R. cbn [under]. destruct (Nat.eqb_spec i j) as [->|Ni]; [rewrite E1 in E; injection E as <-; exact L1|exact (Rest i c' Ni E)].
    + intros j' q' E. injection E as <- _. eauto.
    + rewrite Oh, Bh by auto. reflexivity.
    + destruct Cv as (w' & Ew & ->). rewrite Q in Ew. injection Ew as <-. exact E.
  - intros D0 Hd I. apply (host_blind t ty C T N NC f _ zs k p y B); auto. rewrite R. intros i c E. exact (all_unnumbered dst 0 _ _ Nu I i c E).
Qed.

(** ** Requests *)
Lemma up_request t ty io x p y : tlp_check t = Ok true -> fmt_type t = Ok ty -> route_of ty t = TAddr io x -> 0 <= x < 2 ^ 64 ->
  tidy b -> (forall k, (granule k | lim k l)) -> apart l l' -> (forall p a, In (p, a) (flat_map bar_allocs n) -> decodes io x a) -> p <> [] -> net_at z p = Some y ->
  (forall e a q w, In (e, a) (flat_map bar_allocs n) -> holds io x a -> q <> [] -> net_at z q = Some w -> f_id (net_fn w) = p_id e -> from_function z p t = Ok (if way true p q then Stops (net_fn w) t else Drops)) /\
  ((forall k, io_kind k = io -> ~ lim k l <= x <= lim k l') -> from_function z p t = Ok (Passes t)) /\
  ((forall e a, In (e, a) (flat_map bar_allocs n) -> ~ holds io x a) -> forall k, io_kind k = io -> lim k l <= x <= lim k l' -> from_function z p t = Ok Drops).
Proof.
  intros C T R X Ti Gr Ap D Np P. destruct p as [|k p]; [congruence|]. assert (N : route_of ty t <> TNone) by congruence. assert (NC : local_cfg (route_of ty t) = false) by (rewrite R; reflexivity).
  pose proof path_once as PO. destruct (up m h z l h' b n l' U) as (f & zs & Ez & (Hi & Hl & Hb) & W & Tk & Ad & Nu). rewrite Ez in *. clear Ez. destruct U as (_ & _ & As & Li & _).
  pose proof (assign_laid b l n l' Tk As) as [L _]. pose proof (all_proper _ _ _ Nu) as Pr.
  assert (D' : Forall (fun a => is_bar a = true -> decodes io x a) (flat_map allocs n)).
  { apply Forall_forall. intros a Ia Ba. assert (J : In a (filter is_bar (flat_map allocs n))) by (apply filter_In; auto). rewrite <- snd_all in J. apply in_map_iff in J.
    destruct J as ([e a'] & E & J). cbn [snd] in E. subst a'. exact (D e a J). }
  assert (B : bars f 2 [None; None] (route_of ty t)) by (rewrite R; split; [exact Hl|]; split; [reflexivity|]; split; [apply X|split; constructor]).
  assert (Ob : SpecRoute.own f [None; None] (route_of ty t) = false) by (rewrite R; reflexivity).
  assert (Bh : behind f (route_of ty t) = true <-> exists k, io_kind k = io /\ lim k l <= x <= lim k l').
  { rewrite R. assert (A : forall k, f_attr f (base_attr k) = lim k l /\ f_attr f (limit_attr k) = lim k l').
    { intros j. specialize (W j). unfold SpecAssign.windows in W. apply pair_equal_spec in W. exact W. }
    cbn [behind]. unfold inw, io_window, mem_window, pf_window. cbn [fst snd].
    destruct (A Io) as [A1 A2], (A Mem) as [A3 A4], (A Pref) as [A5 A6]. cbn [base_attr limit_attr] in *. rewrite A1, A2, A3, A4, A5, A6. clear - io.
    destruct io; split.
    - intros H. exists Io. split; [reflexivity|]. lia.
    - intros (j & K & H). destruct j; try discriminate K. lia.
    - intros H. apply orb_prop in H. destruct H as [H|H]; [exists Mem|exists Pref]; (split; [reflexivity|]); lia.
    - intros (j & K & H). destruct j; try discriminate K; apply orb_true_iff; [left|right]; lia. }
  destruct (placed t ty io x R X _ l l' (conj Ti Gr) ltac:(intros j; apply Li) ltac:(intros j; apply Li) Ap l n l' L ltac:(apply le_refl) ltac:(apply le_refl) D' zs Ad Pr) as [PA PB].
  split; [|split].
  - intros e a q w Ia Ho Nq Q Ei. destruct (PB e a Ia Ho) as (j & q1 & c & w1 & E1 & L1 & A & Ei1 & Rest).
    assert (Eq : j :: q1 = q) by (apply (PO (j :: q1) q w1 w); [cbn [net_at]; rewrite E1; exact A|exact Q|congruence]). subst q.
    destruct (host_leads t ty C T N NC (Some (j :: q1)) f _ zs k p y B) as (v & E & Cv); try discriminate; auto.
    + intros i c' E. rewrite R. cbn [under]. destruct (Nat.eqb_spec i j) as [->|Ni]; [rewrite E1 in E; injection E as <-; exact L1|exact (Rest i c' Ni E)].
    + intros j' q' E. injection E as <- _. eauto.
    + rewrite Ob. assert (behind f (route_of ty t) = true) as ->; [|reflexivity]. apply Bh. destruct (holds_range io x _ _ _ _ _ _ L Ia Ho) as [Kk Hx]. exists (a_kind a). split; [exact Kk|lia].
    + destruct Cv as (w' & Ew & ->). rewrite Q in Ew. injection Ew as <-. exact E.
  - intros No. destruct (host_leads t ty C T N NC None f _ zs k p y B) as (v & E & Cv); try discriminate; auto.
    + intros i c E. cbn [under]. rewrite R. refine (PA _ i c E). intros (j & K & Hx). apply (No j K). lia.
    + rewrite Ob. assert (behind f (route_of ty t) = false) as ->; [|reflexivity]. apply not_true_iff_false. rewrite Bh. intros (j & K & Hx). exact (No j K Hx).
    + cbn [comes] in Cv. subst v. exact E.
  - intros No j K Hx. apply (host_blind t ty C T N NC f _ zs k p y B); auto; [|apply Bh; eauto]. rewrite R.
    pose proof (unplaced io x X _ _ _ _ L D' No zs Ad Pr) as F. rewrite Forall_forall in F. intros i c E. exact (F c (nth_error_In _ _ E)).
Qed.
End Up.
