(** Addresses in a tree that is set up. *)
From Verif Require Import Base BaseProofs ModelUtils ModelTlp ModelAttrs ModelCapList ModelConfig ModelFunction ModelRoute ModelEnum ModelAssign SpecBar SpecRoute
  SpecEnum SpecAssign ModelTree SpecTree ProofsBar ProofsRoute ProofsAssign ProofsAssignFacts.

Lemma sum_in {A} (g : A -> nat) k d : In d k -> (g d <= list_sum (map g k))%nat.
Proof. induction k as [|y k IH]; intros H; [destruct H|]. change (list_sum (map g (y :: k))) with (g y + list_sum (map g k))%nat. destruct H as [->|H]; [lia|]. specialize (IH H). lia. Qed.

Lemma bar_in d p a : In (p, a) (bar_allocs d) -> In a (allocs d) /\ is_bar a = true.
Proof.
  revert p a. induction d as [d IH] using (well_founded_induction (Wf_nat.well_founded_ltof _ (fix sz d := match d with ADev _ _ (Some (_, k)) => S (list_sum (map sz k)) | ADev _ _ None => 1 end)%nat)).
  intros p a. destruct d as [q own [[r k]|]]; cbn [bar_allocs allocs]; rewrite !in_app_iff.
  - intros [H|H].
    + apply in_map_iff in H. destruct H as (a' & E & H). injection E as <- <-. apply filter_In in H. tauto.
    + apply in_flat_map in H. destruct H as (d & Hd & H). apply IH in H.
      * destruct H. split; [|assumption]. right. apply in_flat_map. eauto.
      * unfold ltof. apply le_n_S. apply sum_in. exact Hd.
  - intros [H|[]]. apply in_map_iff in H. destruct H as (a' & E & H). injection E as <- <-. apply filter_In in H. tauto.
Qed.
Lemma bars_in n p a : In (p, a) (flat_map bar_allocs n) -> In a (flat_map allocs n) /\ is_bar a = true.
Proof. intros H. apply in_flat_map in H. destruct H as (d & Hd & H). apply bar_in in H. destruct H. split; [|assumption]. apply in_flat_map. eauto. Qed.

Section Addr.
Variables (t : tlp) (ty : tlp_type) (io : bool) (x : Z).
Hypothesis C : tlp_check t = Ok true.
Hypothesis T : fmt_type t = Ok ty.
Hypothesis R : route_of ty t = TAddr io x.
Hypothesis X : 0 <= x < 2 ^ 64.

Lemma not_none : route_of ty t <> TNone.
Proof. rewrite R. discriminate. Qed.
Lemma seen_same f : as_seen f ty t = t.
Proof. unfold as_seen. destruct (_ =? _); [|reflexivity]. destruct ty; try reflexivity; discriminate R. Qed.
Lemma reach_bridge f lay l : bars f 2 lay (TAddr io x) -> reach (Net f true l) t =
  if SpecRoute.own f lay (TAddr io x) then Ok (Some (f, t)) else if behind f (TAddr io x) then first_claim (net_claims t) (fun z => reach z t) l else Ok None.
Proof.
  intros B. rewrite <- R in B. cbn [reach]. destruct (upstream_recv t ty f lay C T not_none B) as (f' & E & _). rewrite E, R. cbn [bind].
  destruct (SpecRoute.own f lay (TAddr io x)); [reflexivity|]. destruct (behind f (TAddr io x)); [rewrite seen_same; reflexivity|]. destruct (non_posted ty); reflexivity.
Qed.
Lemma reach_leaf f lay l : bars f 6 lay (TAddr io x) -> reach (Net f false l) t = Ok (if SpecRoute.own f lay (TAddr io x) then Some (f, t) else None).
Proof. intros B. rewrite <- R in *. cbn [reach]. rewrite (match_tlp_spec f 6 lay t ty T not_none B). reflexivity. Qed.
Lemma claims_eq f br lay l : bars f (net_bars br) lay (TAddr io x) -> net_claims t (Net f br l) = Ok (SpecRoute.own f lay (TAddr io x) || (br && behind f (TAddr io x))).
Proof.
  intros B. rewrite <- R in *. cbn [net_claims]. rewrite (match_tlp_spec f _ lay t ty T not_none B). cbn [bind]. destruct (SpecRoute.own f lay (route_of ty t)); [reflexivity|].
  destruct br; [|reflexivity]. apply match_secondary_spec; [exact T|exact not_none].
Qed.

(** What answers at [x]: the BAR of allocation [a] *)
Definition at_bar (nb : Z) (f : fnc) (a : alloc) : Prop :=
  holds io x a /\ exists j, a_reg a = 0x10 + 4 * j /\ match_bar nb x io (f_attr f) = Ok (Some (j, x - a_addr a)).

Lemma spot_place own lay w : map place (SpecBar.windows 0 lay) = map spot (filter is_bar own) -> In w (SpecBar.windows 0 lay) ->
  exists a, In a own /\ is_bar a = true /\ spot a = place w.
Proof.
  intros E I. apply (in_map place) in I. rewrite E in I. apply in_map_iff in I. destruct I as (a & E' & I). apply filter_In in I. exists a. tauto.
Qed.
Lemma place_spot own lay a : map place (SpecBar.windows 0 lay) = map spot (filter is_bar own) -> In a own -> is_bar a = true ->
  exists w, In w (SpecBar.windows 0 lay) /\ place w = spot a.
Proof.
  intros E I B. assert (J : In (spot a) (map spot (filter is_bar own))) by (apply in_map, filter_In; auto). rewrite <- E in J. apply in_map_iff in J.
  destruct J as (w & E' & J). exists w. auto.
Qed.
Lemma io_kind_of k : io_kind (kind_of_bar k) = is_io k.
Proof. destruct k as [|[] []]; reflexivity. Qed.
Lemma bars_here f nb own : bars_at f nb own -> Forall (fun a => is_bar a = true -> decodes io x a) own ->
  exists lay, bars f nb lay (TAddr io x) /\
    if SpecRoute.own f lay (TAddr io x) then exists a, In a own /\ is_bar a = true /\ at_bar nb f a
    else forall a, In a own -> is_bar a = true -> ~ holds io x a.
Proof.
  intros (lay & L & S & E) D. rewrite Forall_forall in D.
  assert (B : bars f nb lay (TAddr io x)).
  { split; [exact L|]. split; [exact S|]. split; [apply X|]. split; apply Forall_forall; intros [[[i k] n] base] I; destruct (spot_place own lay _ E I) as (a & Ia & Ba & Ea);
      destruct (D a Ia Ba) as [D1 D2]; unfold spot, place in Ea; apply pair_equal_spec in Ea; destruct Ea as [Ea E5]; apply pair_equal_spec in Ea; destruct Ea as [Ea E4];
      apply pair_equal_spec in Ea; destruct Ea as [Ea E3]; apply pair_equal_spec in Ea; destruct Ea as [E1 E2]; unfold small, reaches.
    - rewrite E5 in D1. apply Z.pow_lt_mono_r_iff in D1; lia.
    - intros K. rewrite E2, io_kind_of in D2. unfold bwidth. destruct (is_wide k) eqn:W; [apply X|]. destruct (D2 K) as [D3|D3]; [exact D3|]. rewrite D3 in E3. discriminate E3. }
  exists lay. split; [exact B|]. destruct B as (_ & _ & _ & B4 & B5). pose proof (decode nb x io (f_attr f) lay L S (proj1 X) B4 B5) as DE.
  assert (K : forall i k n base a, spot a = place (i, k, n, base) -> a_reg a = 16 + 4 * i /\ io_kind (a_kind a) = is_io k /\ a_addr a = base /\ a_size a = 2 ^ n).
  { intros i k n base a Ea. unfold spot, place in Ea. apply pair_equal_spec in Ea; destruct Ea as [Ea E5]; apply pair_equal_spec in Ea; destruct Ea as [Ea E4];
      apply pair_equal_spec in Ea; destruct Ea as [Ea E3]; apply pair_equal_spec in Ea; destruct Ea as [E1 E2]. rewrite E2, io_kind_of. auto. }
  pose proof (match_bar_spec f nb lay io x (conj L (conj S (conj (proj1 X) (conj B4 B5))))) as (o & Eo & Ho). cbn [SpecRoute.own]. rewrite <- Ho. rewrite Eo in DE.
  destruct o as [[i off]|].
  - destruct DE as (k & n & base & I & K1 & K2 & ->). destruct (spot_place own lay _ E I) as (a & Ia & Ba & Ea). destruct (K _ _ _ _ _ Ea) as (F1 & F2 & F3 & F4).
    exists a. split; [exact Ia|]. split; [exact Ba|]. split; [split; [congruence|rewrite F3, F4; exact K2]|]. exists i. rewrite F3. auto.
  - intros a Ia Ba [H1 H2]. destruct (place_spot own lay a E Ia Ba) as ([[[i k] n] base] & I & Ea). symmetry in Ea. destruct (K _ _ _ _ _ Ea) as (F1 & F2 & F3 & F4).
    apply (DE _ I); [unfold of_kind; congruence|unfold in_window; rewrite <- F3, <- F4; exact H2].
Qed.

(** The window of a bridge *)
Lemma behind_window f r b e : (forall k, SpecAssign.windows f k = window k r) -> (forall k, window k r = (b k, lim k e - 1)) ->
  behind f (TAddr io x) = true <-> exists k, io_kind k = io /\ b k <= x < lim k e.
Proof.
  intros W E. assert (A : forall k, f_attr f (base_attr k) = b k /\ f_attr f (limit_attr k) = lim k e - 1).
  { intros k. specialize (W k). rewrite E in W. unfold SpecAssign.windows in W. apply pair_equal_spec in W. exact W. }
  cbn [behind]. unfold inw, io_window, mem_window, pf_window. cbn [fst snd].
  destruct (A Io) as [A1 A2], (A Mem) as [A3 A4], (A Pref) as [A5 A6]. cbn [base_attr limit_attr] in *. rewrite A1, A2, A3, A4, A5, A6.
  destruct io; split.
  - intros H. exists Io. split; [reflexivity|]. lia.
  - intros (k & K & H). destruct k; try discriminate K. lia.
  - intros H. apply orb_prop in H. destruct H as [H|H]; [exists Mem|exists Pref]; (split; [reflexivity|]); lia.
  - intros (k & K & H). destruct k; try discriminate K; apply orb_true_iff; [left|right]; lia.
Qed.

(** The search below a bridge *)
Definition outcome (n : list adev) (o : option (fnc * tlp)) (zs : list net) : Prop :=
  match o with
  | Some (f, t') => t' = t /\ exists p a nb, In (p, a) (flat_map bar_allocs n) /\ f_id f = p_id p /\ In (f, nb) (flat_map net_fns zs) /\ at_bar nb f a
  | None => forall p a, In (p, a) (flat_map bar_allocs n) -> ~ holds io x a
  end.
Lemma go_addressed k l :
  (fix go (k : list adev) (l : list net) : Prop := match k, l with [], [] => True | a :: k, z :: l => addressed a z /\ go k l | _, _ => False end) k l <-> Forall2 addressed k l.
Proof.
  revert l. induction k as [|a k IH]; intros [|z l].
  - split; intros; [constructor|exact Logic.I].
  - split; intros H; [destruct H|inversion H].
  - split; intros H; [destruct H|inversion H].
  - split.
    + intros [H1 H2]. constructor; [exact H1|]. apply IH. exact H2.
    + intros H. inversion H; subst. split; [assumption|]. apply IH. assumption.
Qed.
Lemma holds_range (G : Prop) l n l' p a : laid G l n l' -> In (p, a) (flat_map bar_allocs n) -> holds io x a ->
  io_kind (a_kind a) = io /\ lim (a_kind a) l <= x < lim (a_kind a) l'.
Proof.
  intros L I [K H]. apply bars_in in I. destruct I as [I _]. apply laid_facts in L. destruct L as (_ & W & _). rewrite Forall_forall in W. destruct (W a I). split; [exact K|lia].
Qed.

Lemma search (G : Prop) (L L' : lims) : (forall k, 0 < lim k L) -> granular L -> (forall k, lim k L' < top k) -> apart L L' ->
  forall l n l', laid G l n l' -> le_lims L l -> le_lims l' L' ->
  Forall (fun a => is_bar a = true -> decodes io x a) (flat_map allocs n) -> forall zs, Forall2 addressed n zs ->
  exists o, first_claim (net_claims t) (fun z => reach z t) zs = Ok o /\ outcome n o zs.
Proof.
  intros HL HG HT HA l n l' H. induction H as [l|l p own l1 r l2 Ch Hr IH|l p own l1 kids l2 regs r l3 Ch Hk IHk Hgr Es Hr IHr]; intros L1 L2 D zs Z.
  - inversion Z; subst. exists None. split; [reflexivity|]. intros p a [].
  - inversion Z as [|a z k zs' Z1 Z2]; subst. destruct z as [f br ks]. destruct Z1 as (I & B & ->). cbn [flat_map allocs] in D. rewrite app_nil_r in D. apply Forall_app in D. destruct D as [D1 D2].
    destruct (bars_here f _ own B D1) as (lay & Bl & O). pose proof (claims_eq f false lay ks Bl) as CE. rewrite orb_false_r in CE.
    cbn [first_claim]. rewrite CE. cbn [bind]. pose proof (chain_facts _ _ _ Ch) as (C1 & _). pose proof (laid_facts _ _ _ _ Hr) as (R1 & _).
    destruct (SpecRoute.own f lay (TAddr io x)) eqn:Eo.
    + exists (Some (f, t)). split; [rewrite (reach_leaf f lay ks Bl), Eo; reflexivity|]. split; [reflexivity|].
      destruct O as (a & Ia & Ba & A). exists p, a, 6. split; [|split; [exact I|split; [left; reflexivity|exact A]]]. cbn [flat_map bar_allocs]. apply in_or_app. left. apply in_or_app. left.
      apply in_map, filter_In. auto.
    + destruct (IH ltac:(intros k; specialize (L1 k); specialize (C1 k); lia) L2 D2 zs' Z2) as (o & E & OC). exists o. split; [exact E|]. destruct o as [[g t']|].
      * destruct OC as (-> & q & a & nb & Ia & J1 & J & Rest). split; [reflexivity|]. exists q, a, nb. split; [|split; [exact J1|split; [apply in_or_app; right; exact J|exact Rest]]]. cbn [flat_map]. apply in_or_app. right. exact Ia.
      * intros q a Ia. cbn [flat_map bar_allocs] in Ia. rewrite app_nil_r in Ia. apply in_app_or in Ia. destruct Ia as [Ia|Ia]; [|exact (OC q a Ia)].
        apply in_map_iff in Ia. destruct Ia as (a' & Ea & Ia). injection Ea as <- <-. apply filter_In in Ia. apply O; tauto.
  - inversion Z as [|a z k zs' Z1 Z2]; subst. destruct z as [f br ks]. destruct Z1 as (I & B & -> & W & Zk). apply go_addressed in Zk.
    cbn [flat_map allocs] in D. apply Forall_app in D. destruct D as [D D3]. apply Forall_app in D. destruct D as [D1 D2].
    destruct (bars_here f _ own B D1) as (lay & Bl & O). pose proof (claims_eq f true lay ks Bl) as CE.
    cbn [first_claim]. rewrite CE. cbn [bind andb]. pose proof (chain_facts _ _ _ Ch) as (C1 & C2 & _). pose proof (laid_facts _ _ _ _ Hr) as (R1 & _). pose proof (laid_facts _ _ _ _ Hk) as (K1 & _).
    assert (RB : forall k, lim k l2 <= lim k (round l2)) by (intros k; apply round_bounds).
    assert (Bd : forall k, lim k L <= lim k l /\ lim k l <= lim k l1 /\ lim k l1 <= lim k l2 /\ lim k l2 <= lim k (round l2) /\ lim k (round l2) <= lim k l3 /\ lim k l3 <= lim k L').
    { intros k. specialize (L1 k). specialize (C1 k). specialize (K1 k). specialize (RB k). specialize (R1 k). specialize (L2 k). lia. }
    set (bs := fun k => lim k l1 / granule k * granule k).
    assert (WE : forall k, window k regs = (bs k, lim k (round l2) - 1)).
    { intros k. specialize (Bd k). specialize (HL k). specialize (HT k). apply (window_eq l1 (round l2) regs k); auto using round_granular; lia. }
    assert (BS : forall k, lim k L <= bs k <= lim k l1).
    { intros k. specialize (Bd k). destruct (HG k) as [q Eq]. pose proof (granule_pos k). unfold bs. rewrite Eq in *. split; [apply Z.mul_le_mono_nonneg_r; [lia|]; apply Z.div_le_lower_bound; lia|].
      rewrite Z.mul_comm. apply Z.mul_div_le. lia. }
    clearbody bs.
    pose proof (behind_window f regs bs (round l2) W WE) as BW.
    (* the sub-ranges do not meet *)
    assert (AP : forall k k', io_kind k = io -> io_kind k' = io -> lim k L <= x < lim k L' -> lim k' L <= x < lim k' L' -> k = k').
    { intros k k' E1 E2 H1 H2. destruct HA, k, k', io; try discriminate; try reflexivity; exfalso; lia. }
    destruct (SpecRoute.own f lay (TAddr io x)) eqn:Eo; cbn [orb].
    + exists (Some (f, t)). split; [rewrite (reach_bridge f lay ks Bl), Eo; reflexivity|]. split; [reflexivity|].
      destruct O as (a & Ia & Ba & A). exists p, a, 2. split; [|split; [exact I|split; [left; reflexivity|exact A]]]. cbn [flat_map bar_allocs]. apply in_or_app. left. apply in_or_app. left.
      apply in_map, filter_In. auto.
    + assert (OW : forall q a, In (q, a) (map (pair p) (filter is_bar own)) -> ~ holds io x a).
      { intros q a Ia. apply in_map_iff in Ia. destruct Ia as (a' & Ea & Ia). injection Ea as <- <-. apply filter_In in Ia. apply O; tauto. }
      destruct (behind f (TAddr io x)) eqn:Eb.
      * rewrite (reach_bridge f lay ks Bl), Eo, Eb. destruct (proj1 BW eq_refl) as (k & Kk & Hx).
        destruct (IHk ltac:(intros j; specialize (Bd j); lia) ltac:(intros j; specialize (Bd j); lia) D2 ks Zk) as (o & E & OC).
        exists o. split; [exact E|]. destruct o as [[g t']|].
        -- destruct OC as (-> & q & a & nb & Ia & J1 & J & Rest). split; [reflexivity|].
           exists q, a, nb. split; [|split; [exact J1|split; [cbn [flat_map net_fns app]; right; apply in_or_app; left; exact J|exact Rest]]]. cbn [flat_map bar_allocs]. apply in_or_app. left. apply in_or_app. right. exact Ia.
        -- intros q a Ia. cbn [flat_map bar_allocs] in Ia. rewrite <- app_assoc in Ia. apply in_app_or in Ia. destruct Ia as [Ia|Ia]; [exact (OW q a Ia)|].
           apply in_app_or in Ia. destruct Ia as [Ia|Ia]; [exact (OC q a Ia)|]. intros Ho. destruct (holds_range _ _ _ _ _ _ Hr Ia Ho) as [Kk' Hx'].
           assert (k = a_kind a). { pose proof (Bd k) as B1. pose proof (BS k) as B1'. pose proof (Bd (a_kind a)) as B2. apply AP; [exact Kk|exact Kk'|lia|lia]. } subst k. lia.
      * destruct (IHr ltac:(intros j; specialize (Bd j); lia) L2 D3 zs' Z2) as (o & E & OC). exists o. split; [exact E|]. destruct o as [[g t']|].
        -- destruct OC as (-> & q & a & nb & Ia & J1 & J & Rest). split; [reflexivity|].
           exists q, a, nb. split; [|split; [exact J1|split; [cbn [flat_map]; apply in_or_app; right; exact J|exact Rest]]]. cbn [flat_map]. apply in_or_app. right. exact Ia.
        -- intros q a Ia. cbn [flat_map bar_allocs] in Ia. rewrite <- app_assoc in Ia. apply in_app_or in Ia. destruct Ia as [Ia|Ia]; [exact (OW q a Ia)|].
           apply in_app_or in Ia. destruct Ia as [Ia|Ia]; [|exact (OC q a Ia)]. intros Ho. destruct (holds_range _ _ _ _ _ _ Hk Ia Ho) as [Kk' Hx'].
           assert (false = true); [|discriminate]. apply BW. exists (a_kind a). split; [exact Kk'|]. specialize (Bd (a_kind a)). specialize (BS (a_kind a)). lia.
Qed.

(** From the host bridge *)
Lemma from_host (G : Prop) l n l' f zs : (forall k, 0 < lim k l) -> granular l -> (forall k, lim k l' < top k) -> apart l l' -> laid G l n l' ->
  laid_out (f_attr f) 0 [None; None] -> (forall k, SpecAssign.windows f k = (lim k l, lim k l')) ->
  Forall (fun a => is_bar a = true -> decodes io x a) (flat_map allocs n) -> Forall2 addressed n zs ->
  exists o, reach (Net f true zs) t = Ok o /\ outcome n o zs.
Proof.
  intros HL HG HT HA L B W D Z. assert (Bl : bars f 2 [None; None] (TAddr io x)).
  { split; [exact B|]. split; [reflexivity|]. split; [apply X|]. split; constructor. }
  rewrite (reach_bridge f _ zs Bl). change (SpecRoute.own f [None; None] (TAddr io x)) with false. cbn match.
  destruct (search G l l' HL HG HT HA l n l' L (le_refl l) (le_refl l') D zs Z) as (o & E & OC).
  destruct (behind f (TAddr io x)) eqn:Eb; [exists o; auto|]. exists None. split; [reflexivity|]. intros p a Ia Ho.
  destruct (holds_range _ _ _ _ _ _ L Ia Ho) as [K H]. assert (behind f (TAddr io x) = true); [|congruence].
  assert (A : forall k, f_attr f (base_attr k) = lim k l /\ f_attr f (limit_attr k) = lim k l') by (intros k; specialize (W k); unfold SpecAssign.windows in W; apply pair_equal_spec in W; exact W).
  cbn [behind]. unfold inw, io_window, mem_window, pf_window. cbn [fst snd].
  destruct (A Io) as [A1 A2], (A Mem) as [A3 A4], (A Pref) as [A5 A6]. cbn [base_attr limit_attr] in *. rewrite A1, A2, A3, A4, A5, A6.
  destruct (a_kind a), io; try discriminate K; [lia|apply orb_true_iff; left; lia|apply orb_true_iff; right; lia].
Qed.
End Addr.

(** Only one holds an address *)
Lemma fop_in {A} (Q : A -> A -> Prop) l a b : ForallOrdPairs Q l -> In a l -> In b l -> a = b \/ Q a b \/ Q b a.
Proof.
  induction 1 as [|y l H _ IH]; intros Ia Ib; [destruct Ia|]. rewrite Forall_forall in H. destruct Ia as [->|Ia], Ib as [->|Ib]; auto.
Qed.
Lemma fop_filter {A} (Q : A -> A -> Prop) g l : ForallOrdPairs Q l -> ForallOrdPairs Q (filter g l).
Proof.
  induction 1 as [|y l H _ IH]; cbn [filter]; [constructor|]. destruct (g y); [|exact IH]. constructor; [|exact IH]. rewrite Forall_forall in *. intros z Hz. apply filter_In in Hz. apply H. tauto.
Qed.
Lemma fop_map {A B} (g : A -> B) (Q : B -> B -> Prop) l : ForallOrdPairs Q (map g l) -> ForallOrdPairs (fun a b => Q (g a) (g b)) l.
Proof.
  induction l as [|y l IH]; intros H; [constructor|]. inversion H as [|y' l' H1 H2]; subst. constructor; [|apply IH; exact H2]. rewrite Forall_forall in *. intros z Hz. apply H1, in_map, Hz.
Qed.
Lemma snd_bars d : map snd (bar_allocs d) = filter is_bar (allocs d).
Proof.
  induction d as [d IH] using (well_founded_induction (Wf_nat.well_founded_ltof _ (fix sz d := match d with ADev _ _ (Some (_, k)) => S (list_sum (map sz k)) | ADev _ _ None => 1 end)%nat)).
  destruct d as [q own [[r k]|]]; cbn [bar_allocs allocs]; rewrite map_app, filter_app, map_map; cbn [snd]; rewrite map_id; f_equal.
  assert (IH' : forall d, In d k -> map snd (bar_allocs d) = filter is_bar (allocs d)) by (intros d Hd; apply IH; unfold ltof; apply le_n_S; apply sum_in; exact Hd). clear IH.
  induction k as [|d k IHk]; [reflexivity|]. cbn [flat_map]. rewrite map_app, filter_app. f_equal; [apply IH'; left; reflexivity|apply IHk]. intros; apply IH'; right; assumption.
Qed.
Lemma snd_all n : map snd (flat_map bar_allocs n) = filter is_bar (flat_map allocs n).
Proof. induction n as [|d n IH]; [reflexivity|]. cbn [flat_map]. rewrite map_app, filter_app, IH, snd_bars. reflexivity. Qed.
Lemma one_holder io x b l n l' p a p' a' : tree_ok b -> assign_bus b l = Ok (n, l') -> apart l l' ->
  In (p, a) (flat_map bar_allocs n) -> In (p', a') (flat_map bar_allocs n) -> holds io x a -> holds io x a' -> (p', a') = (p, a).
Proof.
  intros Ok E HA I I' [K H] [K' H']. destruct (assign_layout b l n l' Ok E) as (_ & _ & D & W). 
  assert (F : ForallOrdPairs (fun u v : pfn * alloc => disjoint (snd u) (snd v)) (flat_map bar_allocs n)).
  { apply fop_map. rewrite snd_all. apply fop_filter. exact D. }
  assert (KK : a_kind a = a_kind a').
  { rewrite Forall_forall in W. destruct (W a (proj1 (bars_in _ _ _ I))), (W a' (proj1 (bars_in _ _ _ I'))). destruct HA, (a_kind a), (a_kind a'), io; try discriminate; try reflexivity; exfalso; lia. }
  destruct (fop_in _ _ _ _ F I I') as [Q|[Q|Q]]; [congruence| |]; cbn [snd] in Q; [specialize (Q KK)|specialize (Q (eq_sym KK))]; exfalso; lia.
Qed.

(** ** The result *)
Definition ready (l : lims) (b : pbus) (n : list adev) (l' : lims) : Prop :=
  tree_ok b /\ assign_bus b l = Ok (n, l') /\ (forall k, 0 < lim k l /\ (granule k | lim k l) /\ lim k l' < top k) /\ apart l l'.
Lemma addr_all t ty io x l b n l' f zs : tlp_check t = Ok true -> fmt_type t = Ok ty -> route_of ty t = TAddr io x -> 0 <= x < 2 ^ 64 ->
  ready l b n l' -> laid_out (f_attr f) 0 [None; None] -> (forall k, SpecAssign.windows f k = (lim k l, lim k l')) -> Forall2 addressed n zs ->
  (forall p a, In (p, a) (flat_map bar_allocs n) -> decodes io x a) ->
  (forall p a, In (p, a) (flat_map bar_allocs n) -> holds io x a ->
    exists g nb j, reach (Net f true zs) t = Ok (Some (g, t)) /\ In (g, nb) (flat_map net_fns zs) /\ f_id g = p_id p /\
      match_bar nb x io (f_attr g) = Ok (Some (j, x - a_addr a)) /\ a_reg a = 0x10 + 4 * j) /\
  ((forall p a, In (p, a) (flat_map bar_allocs n) -> ~ holds io x a) -> reach (Net f true zs) t = Ok None).
Proof.
  intros C T R X (O1 & O3 & O4 & O5) B W Z D. pose proof (assign_laid b l n l' O1 O3) as [L _].
  assert (D' : Forall (fun a => is_bar a = true -> decodes io x a) (flat_map allocs n)).
  { apply Forall_forall. intros a Ia Ba. assert (J : In a (filter is_bar (flat_map allocs n))) by (apply filter_In; auto). rewrite <- snd_all in J. apply in_map_iff in J.
    destruct J as ([p a'] & E & J). cbn [snd] in E. subst a'. exact (D p a J). }
  assert (GG : granular l) by (intros k; apply O4).
  destruct (from_host t ty io x C T R X _ l n l' f zs ltac:(intros k; apply O4) GG ltac:(intros k; apply O4) O5 L B W D' Z) as (o & E & OC).
  split.
  - intros p a Ia Ha. destruct o as [[g t']|]; [|exfalso; exact (OC p a Ia Ha)]. destruct OC as (-> & p' & a' & nb & Ia' & J1 & J2 & [Ho (j & J3 & J4)]).
    pose proof (one_holder io x b l n l' p a p' a' O1 O3 O5 Ia Ia' Ha Ho) as Eq. injection Eq as -> ->. exists g, nb, j. auto.
  - intros No. destruct o as [[g t']|]; [|exact E]. destruct OC as (-> & p & a & nb & Ia & _ & _ & [Ho _]). exfalso. exact (No p a Ia Ho).
Qed.
