(** Addresses: where a tree with the assigned windows leads. *)
From Verif Require Import Base BaseProofs ModelUtils ModelTlp ModelAttrs ModelCapList ModelConfig ModelFunction ModelRoute ModelEnum ModelAssign SpecBar SpecRoute
  SpecEnum SpecAssign ModelTree SpecTree ModelTreeUp SpecTreeUp ProofsBar ProofsRoute ProofsAssign ProofsAssignFacts ProofsTree ProofsTreeUp.

(** Only bridges have something below them. *)
Inductive proper : net -> Prop := Proper f br l : (br = false -> l = []) -> Forall proper l -> proper (Net f br l).

Section Addr.
Variables (t : tlp) (ty : tlp_type) (io : bool) (x : Z).
Hypothesis R : route_of ty t = TAddr io x.
Hypothesis X : 0 <= x < 2 ^ 64.
Notation r := (TAddr io x).

Definition inside (l l' : lims) : Prop := exists k, io_kind k = io /\ lim k l <= x < lim k l'.
Lemma own_inside l own l' f nb lay : chain l own l' -> bars f nb lay r -> SpecRoute.own f lay r = true ->
  (if SpecRoute.own f lay r then exists a, In a own /\ is_bar a = true /\ at_bar io x nb f a else forall a, In a own -> is_bar a = true -> ~ holds io x a) -> inside l l'.
Proof.
  intros Ch B E O. rewrite E in O. destruct O as (a & Ia & _ & [[K H] _]). apply chain_facts in Ch. destruct Ch as (_ & W & _). rewrite Forall_forall in W. destruct (W a Ia). exists (a_kind a). split; [exact K|lia].
Qed.
Lemma holds_own l own l' a : chain l own l' -> In a own -> holds io x a -> inside l l'.
Proof.
  intros Ch Ia [K H]. apply chain_facts in Ch. destruct Ch as (_ & W & _). rewrite Forall_forall in W. destruct (W a Ia). exists (a_kind a). split; [exact K|lia].
Qed.
Definition to_one (zs : list net) (id : pcie_id) : Prop :=
  exists j q z y, nth_error zs j = Some z /\ leads r (Some q) z /\ net_at z q = Some y /\ f_id (net_fn y) = id /\ forall i c, i <> j -> nth_error zs i = Some c -> leads r None c.
Lemma placed (G : Prop) (L L' : lims) : G -> (forall k, 0 < lim k L) -> (forall k, lim k L' < top k) -> apart L L' ->
  forall l n l', laid G l n l' -> le_lims L l -> le_lims l' L' ->
  Forall (fun a => is_bar a = true -> decodes io x a) (flat_map allocs n) -> forall zs, Forall2 addressed n zs -> Forall proper zs ->
  (~ inside l l' -> forall i c, nth_error zs i = Some c -> leads r None c) /\
  (forall p a, In (p, a) (flat_map bar_allocs n) -> holds io x a -> to_one zs (p_id p)).
Proof.
  intros HG HL HT HA l n l' H.
  (* two parts of the whole that do not overlap *)
  assert (AP : forall a b c d, le_lims L a -> le_lims b L' -> le_lims L c -> le_lims d L' -> inside a b -> inside c d -> exists k, io_kind k = io /\ lim k a <= x < lim k b /\ lim k c <= x < lim k d).
  { intros a b c d A1 A2 A3 A4 (k & K & H1) (k' & K' & H2). assert (k = k'); [|subst; eauto].
    pose proof (A1 k). pose proof (A2 k). pose proof (A3 k'). pose proof (A4 k'). destruct HA, k, k', io; try discriminate; try reflexivity; exfalso; lia. }
  assert (AL : forall a b c d, le_lims L a -> le_lims a b -> le_lims b c -> le_lims c d -> le_lims d L' -> inside a b -> inside c d -> False).
  { intros a b c d A1 A2 A3 A4 A5 I1 I2. destruct (AP a b c d) as (k & _ & H1 & H2); auto; try (intros k; specialize (A1 k); specialize (A2 k); specialize (A3 k); specialize (A4 k); specialize (A5 k); lia).
    specialize (A3 k). lia. }
  induction H as [l|l p own l1 r l2 Ch Hr IH|l p own l1 kids l2 regs r l3 Ch Hk IHk Hgr Es Hr IHr]; intros L1 L2 D zs Z P.
  - inversion Z; subst. split; [intros _ [|i] c E; discriminate E|intros p a []].
  - inversion Z as [|a z k zs' Z1 Z2]; subst. destruct z as [f br ks]. destruct Z1 as (Id & B & ->). cbn [flat_map allocs] in D. rewrite app_nil_r in D. apply Forall_app in D. destruct D as [D1 D2].
    inversion P as [|? ? P1 P2]; subst. inversion P1 as [? ? ? Pk _]; subst. rewrite (Pk eq_refl) in *. clear P1 Pk.
    destruct (bars_here io x X f _ own B D1) as (lay & Bl & O). pose proof (chain_facts _ _ _ Ch) as (C1 & _). pose proof (laid_facts _ _ _ _ Hr) as (R1 & _).
    assert (L3 : le_lims L l1) by (intros j; specialize (L1 j); specialize (C1 j); lia). destruct (IH L3 L2 D2 zs' Z2 P2) as [IA IB]. clear IH.
    assert (S12 : inside l l1 -> inside l1 l2 -> False) by (apply (AL l l1 l1 l2); auto using le_refl).
    assert (Lf : forall o, SpecRoute.own f lay (TAddr io x) = here o -> deeper o = false -> leads (TAddr io x) o (Net f false [])).
    { intros o Eo Ed. apply (Leads _ o f false [] lay Bl Eo); try discriminate; auto; [intros j q ->; discriminate Ed|intros [|i] c E; discriminate E]. }
    split.
    + intros No. assert (Eo : SpecRoute.own f lay (TAddr io x) = false).
      { apply not_true_iff_false. intros Eo. apply No. destruct (own_inside l own l1 f _ lay Ch Bl Eo O) as (k & K & Hx). exists k. split; [exact K|]. specialize (R1 k). lia. }
      intros [|i] c E; [injection E as <-; apply Lf; [exact Eo|reflexivity]|]. apply (IA ltac:(intros (k & K & Hx); apply No; exists k; split; [exact K|]; specialize (C1 k); lia) i c E).
    + intros q a Ia Ho. cbn [flat_map bar_allocs] in Ia. rewrite app_nil_r in Ia. apply in_app_or in Ia. destruct Ia as [Ia|Ia].
      * apply in_map_iff in Ia. destruct Ia as (a' & Ea & Ia). injection Ea as <- <-. apply filter_In in Ia. destruct Ia as [Ia Ba].
        assert (Eo : SpecRoute.own f lay (TAddr io x) = true). { destruct (SpecRoute.own f lay (TAddr io x)); [reflexivity|]. destruct (O a' Ia Ba Ho). }
        exists 0%nat, [], (Net f false []), (Net f false []). split; [reflexivity|]. split; [apply Lf; [exact Eo|reflexivity]|]. split; [reflexivity|]. split; [exact Id|]. intros [|i] c Ni E; [congruence|]. cbn [nth_error] in E.
        apply (IA ltac:(intros I2; exact (S12 (holds_own _ _ _ _ Ch Ia Ho) I2)) i c E).
      * destruct (holds_range io x _ _ _ _ _ _ Hr Ia Ho) as [Kk Hx]. assert (I2 : inside l1 l2) by (exists (a_kind a); auto).
        assert (Eo : SpecRoute.own f lay (TAddr io x) = false). { apply not_true_iff_false. intros Eo. exact (S12 (own_inside l own l1 f _ lay Ch Bl Eo O) I2). }
        destruct (IB q a Ia Ho) as (j & w & z & y & E1 & E2 & E3 & E4 & E5). exists (S j), w, z, y. split; [exact E1|]. split; [exact E2|]. split; [exact E3|]. split; [exact E4|].
        intros [|i] c Ni E; [injection E as <-; apply Lf; [exact Eo|reflexivity]|]. apply (E5 i c); [congruence|exact E].
  - inversion Z as [|a z k zs' Z1 Z2]; subst. destruct z as [f br ks]. destruct Z1 as (Id & B & -> & W & Zk). apply go_addressed in Zk.
    cbn [flat_map allocs] in D. apply Forall_app in D. destruct D as [D D3]. apply Forall_app in D. destruct D as [D1 D2]. inversion P as [|? ? P1 P2]; subst. inversion P1 as [? ? ? _ Pk]; subst. clear P1.
    destruct (bars_here io x X f _ own B D1) as (lay & Bl & O). pose proof (chain_facts _ _ _ Ch) as (C1 & _). pose proof (laid_facts _ _ _ _ Hr) as (R1 & _). pose proof (laid_facts _ _ _ _ Hk) as (K1 & _).
    assert (RB : le_lims l2 (round l2)) by (intros k; apply round_bounds).
    assert (L3 : le_lims L l1) by (intros j; specialize (L1 j); specialize (C1 j); lia). assert (L5 : le_lims L (round l2)) by (intros j; specialize (L3 j); specialize (K1 j); specialize (RB j); lia).
    assert (L6 : le_lims (round l2) L') by (intros j; specialize (R1 j); specialize (L2 j); lia). assert (L4 : le_lims l2 L') by (intros j; specialize (L6 j); specialize (RB j); lia).
    assert (L7 : le_lims l1 L') by (intros j; specialize (L4 j); specialize (K1 j); lia). assert (L8 : le_lims l1 (round l2)) by (intros j; specialize (K1 j); specialize (RB j); lia).
    destruct (IHk L3 L4 D2 ks Zk Pk) as [KA KB]. destruct (IHr L5 L2 D3 zs' Z2 P2) as [IA IB]. clear IHk IHr.
    assert (WE : forall k, window k regs = (lim k l1, lim k (round l2) - 1)).
    { intros k. pose proof (L3 k). pose proof (L8 k). pose proof (L6 k). pose proof (L7 k). specialize (HL k). specialize (HT k). rewrite (window_eq l1 (round l2) regs k Es (round_granular l2)) by lia. f_equal.
      destruct (Hgr HG k) as [q Eq]. rewrite Eq, Z.div_mul by (pose proof (granule_pos k); lia). reflexivity. }
    pose proof (behind_window t ty io x R f regs (fun k => lim k l1) (round l2) W WE) as BW. change (exists k, io_kind k = io /\ lim k l1 <= x < lim k (round l2)) with (inside l1 (round l2)) in BW.
    assert (S12 : inside l l1 -> inside l1 (round l2) -> False) by (apply (AL l l1 l1 (round l2)); auto using le_refl).
    assert (S13 : inside l l1 -> inside (round l2) l3 -> False) by (apply (AL l l1 (round l2) l3); auto using le_refl).
    assert (S23 : inside l1 (round l2) -> inside (round l2) l3 -> False) by (apply (AL l1 (round l2) (round l2) l3); auto using le_refl).
    assert (Kin : inside l1 l2 -> inside l1 (round l2)) by (intros (k & K & Hx); exists k; split; [exact K|]; specialize (RB k); lia).
    assert (Lb : forall o, SpecRoute.own f lay (TAddr io x) = here o -> behind f (TAddr io x) = deeper o -> (forall j q, o = Some (j :: q) -> exists c, nth_error ks j = Some c) ->
      (forall i c, nth_error ks i = Some c -> leads (TAddr io x) (under i o) c) -> leads (TAddr io x) o (Net f true ks)).
    { intros o Eo Ed E1 E2. apply (Leads _ o f true ks lay Bl Eo); auto; discriminate. }
    assert (No : ~ inside l1 (round l2) -> behind f (TAddr io x) = false) by (intros H; apply not_true_iff_false; rewrite BW; exact H).
    split.
    + intros Nx. assert (Eo : SpecRoute.own f lay (TAddr io x) = false).
      { apply not_true_iff_false. intros Eo. apply Nx. destruct (own_inside l own l1 f _ lay Ch Bl Eo O) as (k & K & Hx). exists k. split; [exact K|]. specialize (R1 k). specialize (L8 k). lia. }
      assert (N2 : ~ inside l1 (round l2)) by (intros (k & K & Hx); apply Nx; exists k; split; [exact K|]; specialize (C1 k); specialize (R1 k); lia).
      intros [|i] c E.
      * injection E as <-. apply Lb; [exact Eo|exact (No N2)|discriminate|]. intros i c E. apply (KA ltac:(auto) i c E).
      * apply (IA ltac:(intros (k & K & Hx); apply Nx; exists k; split; [exact K|]; specialize (C1 k); specialize (L8 k); lia) i c E).
    + intros q a Ia Ho. cbn [flat_map bar_allocs] in Ia. rewrite <- app_assoc in Ia. apply in_app_or in Ia. destruct Ia as [Ia|Ia]; [|apply in_app_or in Ia; destruct Ia as [Ia|Ia]].
      * apply in_map_iff in Ia. destruct Ia as (a' & Ea & Ia). injection Ea as <- <-. apply filter_In in Ia. destruct Ia as [Ia Ba].
        assert (Eo : SpecRoute.own f lay (TAddr io x) = true). { destruct (SpecRoute.own f lay (TAddr io x)); [reflexivity|]. destruct (O a' Ia Ba Ho). }
        pose proof (holds_own _ _ _ _ Ch Ia Ho) as I1. exists 0%nat, [], (Net f true ks), (Net f true ks). split; [reflexivity|]. split.
        -- apply Lb; [exact Eo|apply No; auto|discriminate|]. intros i c E. apply (KA ltac:(auto) i c E).
        -- split; [reflexivity|]. split; [exact Id|]. intros [|i] c Ni E; [congruence|]. apply (IA ltac:(auto) i c E).
      * destruct (holds_range io x _ _ _ _ _ _ Hk Ia Ho) as [Kk Hx]. assert (I2 : inside l1 (round l2)) by (apply Kin; exists (a_kind a); auto).
        assert (Eo : SpecRoute.own f lay (TAddr io x) = false). { apply not_true_iff_false. intros Eo. exact (S12 (own_inside l own l1 f _ lay Ch Bl Eo O) I2). }
        destruct (KB q a Ia Ho) as (j & w & z & y & E1 & E2 & E3 & E4 & E5). exists 0%nat, (j :: w), (Net f true ks), y. split; [reflexivity|]. split.
        -- apply Lb; [exact Eo|apply BW; exact I2|intros j' q' Eq; injection Eq as <- <-; eauto|]. intros i c E. cbn [under]. destruct (Nat.eqb_spec i j) as [->|Ni]; [rewrite E1 in E; injection E as <-; exact E2|exact (E5 i c Ni E)].
        -- split; [cbn [net_at]; rewrite E1; exact E3|]. split; [exact E4|]. intros [|i] c Ni E; [congruence|]. apply (IA ltac:(auto) i c E).
      * destruct (holds_range io x _ _ _ _ _ _ Hr Ia Ho) as [Kk Hx]. assert (I3 : inside (round l2) l3) by (exists (a_kind a); auto).
        assert (Eo : SpecRoute.own f lay (TAddr io x) = false). { apply not_true_iff_false. intros Eo. exact (S13 (own_inside l own l1 f _ lay Ch Bl Eo O) I3). }
        destruct (IB q a Ia Ho) as (j & w & z & y & E1 & E2 & E3 & E4 & E5). exists (S j), w, z, y. split; [exact E1|]. split; [exact E2|]. split; [exact E3|]. split; [exact E4|].
        intros [|i] c Ni E; [|apply (E5 i c); [congruence|exact E]]. injection E as <-. apply Lb; [exact Eo|apply No; auto|discriminate|]. intros i c E. apply (KA ltac:(auto) i c E).
Qed.

(** Nobody has the address. *)
Lemma unplaced (G : Prop) : forall l n l', laid G l n l' -> Forall (fun a => is_bar a = true -> decodes io x a) (flat_map allocs n) -> (forall p a, In (p, a) (flat_map bar_allocs n) -> ~ holds io x a) ->
  forall zs, Forall2 addressed n zs -> Forall proper zs -> Forall (blind r) zs.
Proof.
  intros l n l' H. induction H as [l|l p own l1 r l2 Ch Hr IH|l p own l1 kids l2 regs r l3 Ch Hk IHk Hgr Es Hr IHr]; intros D Nh zs Z P.
  - inversion Z. constructor.
  - inversion Z as [|a z k zs' Z1 Z2]; subst. destruct z as [f br ks]. destruct Z1 as (Id & B & ->). cbn [flat_map allocs] in D. rewrite app_nil_r in D. apply Forall_app in D. destruct D as [D1 D2].
    inversion P as [|? ? P1 P2]; subst. inversion P1 as [? ? ? Pk _]; subst. destruct (bars_here io x X f _ own B D1) as (lay & Bl & O). constructor.
    + apply (Blind _ f false ks lay Bl); [|exact Pk|rewrite (Pk eq_refl); intros [|i] c E; discriminate E]. destruct (SpecRoute.own f lay (TAddr io x)); [|reflexivity]. destruct O as (a & Ia & Ba & [Ho _]).
      destruct (Nh p a); [|exact Ho]. cbn [flat_map bar_allocs]. apply in_or_app. left. apply in_or_app. left. apply in_map, filter_In. auto.
    + apply IH; auto. intros q a Ia. apply (Nh q a). cbn [flat_map]. apply in_or_app. right. exact Ia.
  - inversion Z as [|a z k zs' Z1 Z2]; subst. destruct z as [f br ks]. destruct Z1 as (Id & B & -> & W & Zk). apply go_addressed in Zk.
    cbn [flat_map allocs] in D. apply Forall_app in D. destruct D as [D D3]. apply Forall_app in D. destruct D as [D1 D2]. inversion P as [|? ? P1 P2]; subst. inversion P1 as [? ? ? _ Pk]; subst.
    destruct (bars_here io x X f _ own B D1) as (lay & Bl & O). constructor.
    + apply (Blind _ f true ks lay Bl); [|discriminate|].
      * destruct (SpecRoute.own f lay (TAddr io x)); [|reflexivity]. destruct O as (a & Ia & Ba & [Ho _]). destruct (Nh p a); [|exact Ho]. cbn [flat_map bar_allocs]. apply in_or_app. left. apply in_or_app. left. apply in_map, filter_In. auto.
      * assert (F : Forall (blind (TAddr io x)) ks) by (apply IHk; auto; intros q a Ia; apply (Nh q a); cbn [flat_map bar_allocs]; apply in_or_app; left; apply in_or_app; right; exact Ia).
        rewrite Forall_forall in F. intros i c E. apply F. exact (nth_error_In _ i E).
    + apply IHr; auto. intros q a Ia. apply (Nh q a). cbn [flat_map]. apply in_or_app. right. exact Ia.
Qed.
End Addr.
