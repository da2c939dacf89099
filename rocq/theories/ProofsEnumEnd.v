(** The tree before and after enumeration by configuration accesses: at the end every function knows its number. *)
From Verif Require Import Base BaseProofs SpecTlp ModelUtils ModelTlp ModelAttrs ModelCapList ModelConfig ModelFunction ModelHost ModelPci ModelRoute ModelEnum ModelAssign SpecBar SpecRoute SpecEnum SpecAssign ModelTree SpecTree
  ModelTreeCfg ModelScan SpecScan ModelEnumCfg SpecEnumCfg ModelAssignCfg SpecAssignCfg SpecTreeCfg ProofsEnum ProofsEnumFacts ProofsMps ProofsTree ProofsTreeIds ProofsTreeAll ProofsScan ProofsScanAll ProofsScanHw ProofsEnumFn ProofsEnumCap ProofsEnumTree ProofsEnumScan.
Require Import Sorted.

(** ** The devices found *)
Scheme bus_same_ind := Minimality for same_bus Sort Prop with devs_same_ind := Minimality for same_devs Sort Prop.
Lemma same_numbers_found b b' : same_bus b b' -> map p_id (bus_fns b) = map p_id (bus_fns b').
Proof.
  apply (bus_same_ind (fun b b' => map p_id (bus_fns b) = map p_id (bus_fns b')) (fun ds ds' => ids ds = ids ds')).
  - intros n p l ds ds' _ E. rewrite !ids_bus. exact E.
  - reflexivity.
  - intros p p' ds ds' (A & _) _ E. rewrite !ids_cons, A, E. reflexivity.
  - intros p p' c c' ds ds' (A & _) _ E1 _ E2. rewrite !ids_cons, A, E1, E2. reflexivity.
Qed.

(** ** Before: no bridge has buses *)
Section Start.
Context (fuel : nat).
Definition never : pcie_id -> Prop := fun _ => False.
Definition none : pcie_id -> Z -> Prop := fun _ _ => False.
Lemma cold y : forall z, tells fuel y z -> shown y z -> hw_all good_node y -> h_sub (hw_fn y) = 0 -> live z = false /\ caught never none z /\ secs z = [].
Proof.
  induction y as [x l IH] using hw_rect'. intros z T S G U. inversion T as [x0 l0 g br l' To Tl]; subst. apply shown_eq in S. destruct S as (_ & _ & _ & _ & _ & _ & _ & Sl). apply hw_all_eq in G. destruct G as [[_ (_ & Gf & _)] Gl]. cbn [hw_fn hw_below] in *.
  assert (A : alive g br = false) by (unfold alive; destruct br; [rewrite (alive_looks fuel true x g To eq_refl); cbn [snd]; rewrite U|]; reflexivity).
  assert (K : Forall (fun w => live w = false) l' /\ Forall (caught never none) l' /\ flat_map secs l' = [] /\ Forall (fun w => net_br w = true -> whole (net_fn w)) l').
  { clear T To A U. revert IH Sl Gf Gl. induction Tl as [|y z l l' T1 _ IHl]; intros IH Sl Gf Gl; [repeat split; constructor|]. inversion IH as [|? ? IH1 IH2]; subst. inversion Sl as [|? ? ? ? S1 S2]; subst. inversion Gf as [|? ? Gf1 Gf2]; subst. inversion Gl as [|? ? Gl1 Gl2]; subst.
    destruct (IHl IH2 S2 Gf2 Gl2) as (K1 & K2 & K3 & K4). destruct Gf1 as (_ & _ & _ & _ & Gs & _). destruct (IH1 z T1 S1 Gl1 Gs) as (A1 & A2 & A3). split; [constructor; assumption|]. split; [constructor; assumption|]. split; [cbn [flat_map]; rewrite A3; exact K3|].
    constructor; [|exact K4]. destruct y, z. apply shown_eq in S1. cbn [net_br net_fn]. tauto. }
  destruct K as (K1 & K2 & K3 & K4). split; [exact A|]. split.
  - constructor; [rewrite A; discriminate|intros _; exact K1|exact K4|exact K2].
  - cbn [secs]. rewrite A, K3. reflexivity.
Qed.
Lemma start m h f zs : system fuel h (Net f true zs) -> good_system m h -> host_like f -> Forall2 shown (hw_below h) zs -> inv never none 0 (Net f true zs).
Proof.
  intros (_ & _ & f1 & zs1 & E & T) G H S. injection E as <- <-. destruct G as (_ & _ & _ & _ & _ & _ & G & _). destruct h as [x l]. apply hw_all_eq in G. destruct G as [[_ (_ & Gf & _)] Gl]. cbn [hw_fn hw_below] in *.
  assert (K : Forall (fun w => live w = false /\ caught never none w /\ secs w = [] /\ (net_br w = true -> whole (net_fn w))) zs).
  { clear - T S Gf Gl. revert S Gf Gl. induction T as [|y z l zs T1 _ IH]; intros S Gf Gl; [constructor|]. inversion S as [|? ? ? ? S1 S2]; subst. inversion Gf as [|? ? Gf1 Gf2]; subst. inversion Gl as [|? ? Gl1 Gl2]; subst. constructor; [|auto].
    destruct Gf1 as (_ & _ & _ & _ & Gs & _). destruct (cold y z T1 S1 Gl1 Gs) as (A1 & A2 & A3). repeat (split; [assumption|]). destruct y, z. apply shown_eq in S1. cbn [net_br net_fn]. tauto. }
  pose proof H as (_ & _ & B). assert (Sf : flat_map secs zs = []) by (clear - K; induction K as [|w zs (_ & _ & X & _) _ IH]; [reflexivity|cbn [flat_map]; rewrite X; exact IH]).
  assert (A : alive f true = true) by (unfold alive; rewrite B; reflexivity). rewrite Forall_forall in K. split; [exists f, zs; auto|]. split; [|split; [|split; [|split]]].
  - constructor.
    + intros _ d g w Fi. apply find_some in Fi. destruct Fi as [Fi _]. destruct (K w Fi) as (L & _). rewrite L. split; [|intros []]. intros c. unfold none. split; [intros []|intros [X _]; discriminate X].
    + rewrite A. discriminate.
    + apply Forall_forall. intros w Hw. exact (proj2 (proj2 (proj2 (K w Hw)))).
    + apply Forall_forall. intros w Hw. exact (proj1 (proj2 (K w Hw))).
  - cbn [secs]. rewrite A, B, Sf. repeat constructor. intros [].
  - cbn [secs]. rewrite A, B, Sf. intros s [<- |[]]. cbn [fst]. lia.
  - intros i [].
  - intros i c [].
Qed.

(** ** After *)
Lemma places_found l l' : Forall2 (tells fuel) l l' -> StronglySorted (fun a b => key a < key b) l -> Forall2 (fun y z => find (sits (h_d (hw_fn y)) (h_f (hw_fn y))) l' = Some z) l l'.
Proof.
  intros T. induction T as [|y z l l' T1 T2 IH]; intros So; [constructor|]. assert (So' : StronglySorted (fun a b => key a < key b) l /\ Forall (fun b => key y < key b) l) by (inversion So; auto). destruct So' as [So1 So2]. constructor.
  - cbn [find]. rewrite (tells_at fuel _ _ y z T1). unfold is_at. rewrite !Z.eqb_refl. reflexivity.
  - specialize (IH So1). assert (X : forall r r', (forall y1, In y1 r -> key y < key y1) -> Forall2 (fun y z => find (sits (h_d (hw_fn y)) (h_f (hw_fn y))) l' = Some z) r r' -> Forall2 (fun y0 z0 => find (sits (h_d (hw_fn y0)) (h_f (hw_fn y0))) (z :: l') = Some z0) r r').
    { intros r r' K F. induction F as [|y1 z1 r r' F1 _ IHF]; [constructor|]. constructor; [|apply IHF; intros y2 H2; apply K; right; exact H2]. cbn [find]. rewrite (tells_at fuel _ _ y z T1). specialize (K y1 (or_introl eq_refl)).
      destruct (is_at (h_d (hw_fn y1)) (h_f (hw_fn y1)) y) eqn:I; [|exact F1]. exfalso. unfold is_at in I. unfold key in K. lia. }
    apply X; [|exact IH]. rewrite Forall_forall in So2. exact So2.
Qed.
Context (D : pcie_id -> Prop) (E : pcie_id -> Z -> Prop).
Definition wide_open (y : hw) : Prop := is_bridge (hw_fn y) = true -> h_sub (hw_fn y) <> 0.
Definition known (n : Z) (y : hw) : Prop := forall e, In e (functions n y) -> D (number e).
Definition sure (y : hw) : Prop := keyed y /\ fine y /\ wide_open y.
Definition ends (y : hw) : Prop := forall n z0 z, shown y z0 -> tells fuel y z -> hw_all sure y -> caught D E z -> f_id (net_fn z) = mkId n (h_d (hw_fn y)) (h_f (hw_fn y)) -> (net_br z = true -> whole (net_fn z)) -> known n y -> shown y z /\ numbered n y z.
(** One bus, behind a bridge that has been given the number [s] *)
Lemma bus_ends s l l0 l' : Forall ends l -> Forall2 shown l l0 -> Forall2 (tells fuel) l l' -> StronglySorted (fun a b => key a < key b) l -> Forall (hw_all sure) l ->
  Forall (fun w => net_br w = true -> whole (net_fn w)) l' -> Forall (caught D E) l' -> (forall d f w, find (sits d f) l' = Some w -> D (mkId s d f) -> f_id (net_fn w) = mkId s d f) -> (forall y, In y l -> known s y) -> Forall2 (fun y z => shown y z /\ numbered s y z) l l'.
Proof.
  intros IH Sl Tl So Al C3 C4 C1 Kl. assert (Pl : Forall2 (fun y z => D (mkId s (h_d (hw_fn y)) (h_f (hw_fn y))) -> f_id (net_fn z) = mkId s (h_d (hw_fn y)) (h_f (hw_fn y))) l l').
  { pose proof (places_found l l' Tl So) as Q. clear - Q C1. induction Q as [|y z r r1 P _ IHQ]; constructor; [exact (C1 _ _ _ P)|exact IHQ]. }
  clear So C1. revert l0 Sl. induction Pl as [|y z r r' P1 _ IHP]; intros [|z0 l0] Sl; try (inversion Sl; fail); [constructor|].
  inversion IH as [|? ? IH1 IH2]; subst. inversion Sl as [|? ? ? ? Sl1 Sl2]; subst. inversion Tl as [|? ? ? ? Tl1 Tl2]; subst. inversion Al as [|? ? Al1 Al2]; subst. inversion C3 as [|? ? C31 C32]; subst. inversion C4 as [|? ? C41 C42]; subst.
  constructor; [|exact (IHP IH2 Tl2 Al2 C32 C42 (fun y H => Kl y (or_intror H)) l0 Sl2)].
  apply (IH1 s z0 z Sl1 Tl1 Al1 C41); [|exact C31|exact (Kl y (or_introl eq_refl))]. apply P1. apply (Kl y (or_introl eq_refl) (s, hw_fn y)). destruct y. left. reflexivity.
Qed.
Lemma final y : ends y.
Proof.
  induction y as [x l IH] using hw_rect'. intros n z0 z S T A C Id W Kn. inversion T as [x0 l0 g br l' To Tl]; subst. destruct z0 as [f0 b0 l0]. apply shown_eq in S. destruct S as (_ & _ & _ & _ & S5 & S6 & _ & Sl). apply hw_all_eq in A. destruct A as [((So & _) & (_ & Leaf & _) & Op) Al]. cbn [hw_fn hw_below net_fn net_br] in *.
  inversion C as [? ? ? C1 _ C3 C4]; subst. pose proof (t_looks _ _ _ _ To) as (L1 & L2 & L3 & _). pose proof (t_bars _ _ _ _ To) as (lay & B1 & B2 & B3). unfold wide_open in Op. cbn [hw_fn] in Op.
  assert (K : br = true -> Forall2 (fun y z => shown y z /\ numbered (h_sec x) y z) l l').
  { intros Eb. rewrite <- L3 in Op. specialize (Op Eb). assert (Rg : bus_range g = (h_sec x, h_sub x)) by (destruct br; [exact (alive_looks fuel true x g To eq_refl)|discriminate Eb]).
    assert (Ag : alive g br = true) by (unfold alive; rewrite Eb, Rg; cbn [snd andb]; destruct (Z.eqb_spec (h_sub x) 0); [congruence|reflexivity]). specialize (C1 Ag). rewrite Rg in C1. cbn [fst] in C1.
    apply (bus_ends (h_sec x) l l0 l' IH Sl Tl So Al C3 C4); [intros d f w Fi; exact (proj2 (C1 d f w Fi))|]. intros y Hy e He. apply Kn. cbn [functions]. right. apply in_flat_map. exists y. auto. }
  assert (Nb : br = false -> l = [] /\ l' = []).
  { intros Eb. assert (El : l = []) by (apply Leaf; rewrite (t_type _ _ _ _ To), Eb; reflexivity). split; [exact El|]. subst l. inversion Tl. reflexivity. }
  split.
  - apply shown_eq. split; [exact L3|]. split; [exact L1|]. split; [exact L2|]. split; [exists lay; auto|]. split; [exact S5|]. split; [exact S6|]. split; [exact W|].
    destruct br; [specialize (K eq_refl); clear - K; induction K as [|y z r r' [H _] _ IHK]; constructor; auto|destruct (Nb eq_refl) as [-> ->]; constructor].
  - apply numbered_eq. split; [exact Id|]. split; [exact L3|]. split; [exists lay; auto|]. destruct br; [|exact (Nb eq_refl)]. split; [exact (alive_looks fuel true x g To eq_refl)|].
    specialize (K eq_refl). clear - K. induction K as [|y z r r' [_ H] _ IHK]; constructor; auto.
Qed.
End Start.
Lemma all_open y : forall n, 0 <= n -> Forall (hw_all ranged) (hw_below y) -> ordered n (hw_below y) -> Forall (hw_all wide_open) (hw_below y).
Proof.
  induction y as [x l IH] using hw_rect'. cbn [hw_below]. intros n Hn R [_ O]. rewrite Forall_forall in *. intros [x' l'] Iy. pose proof (R _ Iy) as Ry. apply hw_all_eq in Ry. destruct Ry as [Ry Rl]. pose proof (O _ Iy) as Oy. cbn [hw_fn] in Oy. unfold ranged in Ry. cbn [hw_fn hw_below] in Ry. destruct (is_bridge x') eqn:Bx.
  - destruct (Oy eq_refl) as [_ Os]. apply hw_all_eq. split; [intros _; cbn [hw_fn]; lia|]. apply (IH _ Iy (h_sec x') ltac:(lia)); cbn [hw_below]; [exact Rl|exact (proj2 Ry)].
  - subst l'. apply hw_all_eq. split; [unfold wide_open; cbn [hw_fn]; congruence|constructor].
Qed.
(** ** The whole *)
Section Whole.
Context (fuel : nat) (m : Z) (tg : pcie_id -> Z -> Z) (crs : pcie_id -> option bool).
Notation cr := (fun dev => config_read (cfg_ask (tg dev)) (crs dev) dev).
Notation cw := (fun dev => config_write (cfg_ask (tg dev)) dev).
Lemma enum_numbers h z h' b : system fuel h z -> good_system m h -> scan_root m h = Ok (h', b) -> (exists f zs, z = Net f true zs /\ host_like f /\ Forall2 shown (hw_below h) zs) ->
  exists z1 b', cfg_scan_root cr cw fuel m z = Ok (z1, b') /\ system fuel h' z1 /\ same_bus b' b /\ enumerated_net h' z1.
Proof.
  intros Sy G Sc (f & zs & Ez & H & S). pose proof (enum_refines fuel m tg crs h z Sy) as R. rewrite Sc in R. destruct R as (z1 & b' & E & Sy1 & Sb & In0). exists z1, b'. split; [exact E|]. split; [exact Sy1|]. split; [exact Sb|].
  assert (I0 : inv never none 0 z) by (rewrite Ez in Sy |- *; exact (start fuel m h f zs Sy G H S)). destruct (In0 I0) as (D & E1 & last & ((f1 & l1 & Ez1 & H1) & C & _) & K). clear In0 I0.
  destruct (ProofsMps.outcome m h h' b G Sc) as (_ & _ & _ & _ & O & Rg & Ky & _). destruct (enumerated_fine m h h' b zs G Sc S) as (_ & S0 & Fi & Sh). destruct (ProofsMps.found m h h' b G Sc) as [Fo _]. rewrite (same_numbers_found b' b Sb), Fo in K.
  destruct Sy1 as (_ & _ & f2 & l2 & Ez2 & T). rewrite Ez1 in Ez2. injection Ez2 as <- <-. rewrite Ez1 in C. inversion C as [? ? ? C1 _ C3 C4]; subst. destruct H1 as (H11 & H12 & H13).
  assert (Ag : alive f1 true = true) by (unfold alive; rewrite H13; reflexivity). specialize (C1 Ag). rewrite H13 in C1. cbn [fst] in C1. pose proof (all_open h' 0 ltac:(lia) Rg O) as Op. destruct h' as [x' k']. apply hw_all_eq in Ky. destruct Ky as [[So _] Kl]. cbn [hw_below hw_fn] in *.
  assert (Al : Forall (hw_all sure) k').
  { rewrite Forall_forall in *. intros y Hy. apply (all_weak (fun y => keyed y /\ fine y /\ wide_open y)); [auto|]. apply all_and; [auto|]. apply all_and; auto. }
  assert (X : Forall2 (fun y z => shown y z /\ numbered 0 y z) k' l1).
  { apply (bus_ends fuel D E1 0 k' zs l1); auto; [apply Forall_forall; intros y _; apply final|intros d g w Fw; exact (proj2 (C1 d g w Fw))|]. intros y Hy e He. apply K. apply in_map. unfold below_functions. cbn [hw_fn hw_below]. rewrite S0. apply in_flat_map. exists y. auto. }
  exists f1, l1. split; [reflexivity|]. split; [exact (conj H11 (conj H12 H13))|]. split; clear - X; (induction X as [|y z r r' [? ?] _ IHX]; constructor; auto).
Qed.
Lemma enum_ends h z l h' b n l' : system fuel h z -> brought_up m h z l h' b n l' -> exists z1 b', cfg_scan_root cr cw fuel m z = Ok (z1, b') /\ to_assign m h h' b b' z1 l n l'.
Proof.
  intros Sy (G & Sc & As & Li & Z). destruct (enum_numbers h z h' b Sy G Sc Z) as (z1 & b' & E & _ & Sb & N). exists z1, b'. split; [exact E|]. repeat (split; [assumption|]). exact Li.
Qed.
End Whole.
