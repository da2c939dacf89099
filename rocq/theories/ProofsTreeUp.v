(** Upwards and across, from what the bridges on the way claim. *)
From Verif Require Import Base BaseProofs ModelUtils ModelTlp ModelAttrs ModelCapList ModelConfig ModelFunction ModelRoute SpecBar SpecRoute
  ModelTree ModelTreeUp SpecTreeUp ProofsRoute ProofsRouteBr.

Lemma all_but_in {A} k (l : list A) c : In c (all_but k l) <-> exists i, i <> k /\ nth_error l i = Some c.
Proof.
  revert k. induction l as [|d l IH]; intros k.
  - unfold all_but. rewrite firstn_nil, skipn_nil. split; [intros []|]. intros ([|i] & _ & H); discriminate H.
  - destruct k as [|k].
    + change (all_but 0 (d :: l)) with l. split.
      * intros H. apply In_nth_error in H. destruct H as [i H]. exists (S i). split; [discriminate|exact H].
      * intros ([|i] & Q & H); [congruence|]. exact (nth_error_In _ i H).
    + change (all_but (S k) (d :: l)) with (d :: all_but k l). cbn [In]. rewrite IH. split.
      * intros [->|(i & Q & H)]; [exists 0%nat; split; [discriminate|reflexivity]|]. exists (S i). split; [congruence|exact H].
      * intros ([|i] & Q & H); [left; injection H; auto|]. right. exists i. split; [congruence|exact H].
Qed.

Definition here (o : option (list nat)) : bool := match o with Some [] => true | _ => false end.
Definition deeper (o : option (list nat)) : bool := match o with Some (_ :: _) => true | _ => false end.
Definition some (o : option (list nat)) : bool := match o with Some _ => true | None => false end.
Definition under (i : nat) (o : option (list nat)) : option (list nat) := match o with Some (j :: q) => if Nat.eqb i j then Some q else None | _ => None end.
(** In tree [z], [r] leads to the function at [o], and to no other. *)
Inductive leads (r : route) : option (list nat) -> net -> Prop :=
| Leads o f br l lay : bars f (net_bars br) lay r -> SpecRoute.own f lay r = here o -> (br = true -> behind f r = deeper o) -> (br = false -> l = []) ->
    (forall j q, o = Some (j :: q) -> exists c, nth_error l j = Some c) -> (forall i c, nth_error l i = Some c -> leads r (under i o) c) -> leads r o (Net f br l).
(** In tree [z], nobody is meant by [r], whatever the bridges claim. *)
Inductive blind (r : route) : net -> Prop :=
| Blind f br l lay : bars f (net_bars br) lay r -> SpecRoute.own f lay r = false -> (br = false -> l = []) -> (forall i c, nth_error l i = Some c -> blind r c) -> blind r (Net f br l).

Section Way.
Variables (t : tlp) (ty : tlp_type).
Hypothesis C : tlp_check t = Ok true.
Hypothesis T : fmt_type t = Ok ty.
Hypothesis N : route_of ty t <> TNone.
Hypothesis NC : local_cfg (route_of ty t) = false.
Notation r := (route_of ty t).

Lemma up_same f : as_seen f ty t = t.
Proof. unfold as_seen. destruct (_ =? _); [|reflexivity]. destruct ty; try reflexivity; discriminate NC. Qed.
Lemma reach_br f lay l : bars f 2 lay r -> reach (Net f true l) t =
  if SpecRoute.own f lay r then Ok (Some (f, t)) else if behind f r then first_claim (net_claims t) (fun z => reach z t) l else Ok None.
Proof.
  intros B. cbn [reach]. destruct (upstream_recv t ty f lay C T N B) as (f' & E & _). rewrite E. cbn [bind].
  destruct (SpecRoute.own f lay r); [reflexivity|]. destruct (behind f r); [rewrite up_same; reflexivity|]. destruct (non_posted ty); reflexivity.
Qed.
Lemma reach_end f lay l : bars f 6 lay r -> reach (Net f false l) t = Ok (if SpecRoute.own f lay r then Some (f, t) else None).
Proof. intros B. cbn [reach]. rewrite (match_tlp_spec f 6 lay t ty T N B). reflexivity. Qed.
Lemma net_claims_eq f br lay l : bars f (net_bars br) lay r -> net_claims t (Net f br l) = Ok (SpecRoute.own f lay r || (br && behind f r)).
Proof.
  intros B. cbn [net_claims]. rewrite (match_tlp_spec f _ lay t ty T N B). cbn [bind]. destruct (SpecRoute.own f lay r); [reflexivity|].
  destruct br; [|reflexivity]. apply match_secondary_spec; [exact T|exact N].
Qed.
Lemma through_eq root f lay : bars f 2 lay r -> through root t f =
  Ok (if negb root && SpecRoute.own f lay r then Stops f t else if root || negb (behind f r) then Passes t else Drops).
Proof.
  intros B. unfold through. destruct (downstream_recv root t ty f lay C T N B) as (f' & E & _). rewrite E, NC. cbn [bind].
  destruct (negb root && SpecRoute.own f lay r); [reflexivity|]. destruct (root || negb (behind f r)); [reflexivity|]. destruct (non_posted ty); reflexivity.
Qed.
Lemma switched_eq root f lay k l : bars f 2 lay r -> switched root f k l t =
  if SpecRoute.own f lay r || negb (behind f r) then Ok (if negb root && SpecRoute.own f lay r then Stops f t else Passes t)
  else o <- first_claim (net_claims t) (fun z => reach z t) (all_but k l) ;; Ok (match o with Some (g, t) => Stops g t | None => Drops end).
Proof.
  intros B. unfold switched. rewrite (match_tlp_spec f 2 lay t ty T N B). cbn [bind]. destruct (SpecRoute.own f lay r) eqn:E.
  - cbn [bind negb orb]. rewrite (through_eq root f lay B), E. destruct root; reflexivity.
  - rewrite (match_secondary_spec f t ty T N). cbn [bind orb]. destruct (behind f r) eqn:Eb; [reflexivity|]. cbn [negb]. rewrite (through_eq root f lay B), E, Eb, andb_false_r, orb_true_r. reflexivity.
Qed.

(** The search *)
Lemma first_one l v : (forall c, In c l -> exists b, net_claims t c = Ok b /\ (b = true -> reach c t = Ok v)) -> (exists c, In c l /\ net_claims t c = Ok true) ->
  first_claim (net_claims t) (fun z => reach z t) l = Ok v.
Proof.
  induction l as [|c l IH]; intros H (d & I & E); [destruct I|]. cbn [first_claim]. destruct (H c (or_introl eq_refl)) as (b & Eb & Hb). rewrite Eb. cbn [bind]. destruct b; [apply Hb; reflexivity|].
  apply IH; [intros c' I'; apply H; right; exact I'|]. destruct I as [->|I]; [congruence|]. exists d. auto.
Qed.
Lemma first_none l : (forall c, In c l -> exists b, net_claims t c = Ok b /\ (b = true -> reach c t = Ok None)) -> first_claim (net_claims t) (fun z => reach z t) l = Ok None.
Proof.
  induction l as [|c l IH]; intros H; [reflexivity|]. cbn [first_claim]. destruct (H c (or_introl eq_refl)) as (b & Eb & Hb). rewrite Eb. cbn [bind]. destruct b; [apply Hb; reflexivity|].
  apply IH. intros c' I'. apply H. right. exact I'.
Qed.
Definition found_at (o : option (list nat)) (z : net) (v : option (fnc * tlp)) : Prop :=
  match o with Some q => exists y, net_at z q = Some y /\ v = Some (net_fn y, t) | None => v = None end.
Lemma leads_claims o z : leads r o z -> net_claims t z = Ok (some o).
Proof.
  intros L. destruct L as [o f br l lay B E1 E2 E3 E4 _]. rewrite (net_claims_eq f br lay l B), E1. destruct br.
  - rewrite E2 by reflexivity. destruct o as [[|]|]; reflexivity.
  - destruct o as [[|j q]|]; try reflexivity. rewrite (E3 eq_refl) in E4. destruct (E4 j q eq_refl) as (c & E). destruct j; discriminate E.
Qed.
Lemma leads_target q z : leads r (Some q) z -> exists y, net_at z q = Some y.
Proof.
  revert z. induction q as [|j q IH]; intros z L; [exists z; reflexivity|]. inversion L as [o f br l lay B E1 E2 E3 E4 E5]; subst. destruct (E4 j q eq_refl) as (c & E).
  cbn [net_at]. rewrite E. apply IH. specialize (E5 j c E). cbn [under] in E5. rewrite Nat.eqb_refl in E5. exact E5.
Qed.
Lemma leads_reach o z : leads r o z -> exists v, reach z t = Ok v /\ found_at o z v.
Proof.
  induction 1 as [o f br l lay B E1 E2 E3 E4 E5 IH]. destruct br.
  - rewrite (reach_br f lay l B), E1, E2 by reflexivity. destruct o as [[|j q]|]; cbn [here deeper].
    + eexists. split; [reflexivity|]. exists (Net f true l). split; reflexivity.
    + destruct (E4 j q eq_refl) as (c & E). destruct (IH j c E) as (v & Ev & F). pose proof (leads_claims _ _ (E5 j c E)) as Cl. cbn [under] in *. rewrite Nat.eqb_refl in *. exists v. split.
      * apply first_one.
        -- intros d I. apply In_nth_error in I. destruct I as [i Ei]. pose proof (leads_claims _ _ (E5 i d Ei)) as Cd. eexists. split; [exact Cd|]. cbn [under]. destruct (Nat.eqb_spec i j) as [->|_]; [|discriminate].
           rewrite E in Ei. injection Ei as <-. intros _. exact Ev.
        -- exists c. split; [exact (nth_error_In _ j E)|]. exact Cl.
      * destruct F as (y & Ey & ->). exists y. cbn [net_at]. rewrite E. auto.
    + exists None. split; reflexivity.
  - rewrite (reach_end f lay l B), E1. eexists. split; [reflexivity|]. destruct o as [[|j q]|]; cbn [here found_at].
    + exists (Net f false l). split; reflexivity.
    + rewrite (E3 eq_refl) in E4. destruct (E4 j q eq_refl) as (c & E). destruct j; discriminate E.
    + reflexivity.
Qed.

(** What comes out *)
Definition comes (sw : bool) (p : list nat) (o : option (list nat)) (z : net) (v : passage) : Prop :=
  match o with
  | None => v = Passes t
  | Some q => exists y, net_at z q = Some y /\ v = if way sw p q then Stops (net_fn y) t else Drops
  end.
(** The others in a switch, when port [k] is where it comes from *)
Lemma across k o l : (forall i c, nth_error l i = Some c -> leads r (under i o) c) -> (forall j q, o = Some (j :: q) -> exists c, nth_error l j = Some c) -> deeper o = true ->
  forall sw p f br, under k o = None \/ p = [] -> sw = true ->
  exists v, (o <- first_claim (net_claims t) (fun z => reach z t) (all_but k l) ;; Ok (match o with Some (g, t) => Stops g t | None => Drops end)) = Ok v /\ comes sw (k :: p) o (Net f br l) v.
Proof.
  intros L E4 Dp sw p f br Hk ->. destruct o as [[|j q]|]; try discriminate Dp. destruct (E4 j q eq_refl) as (c & E). pose proof (L j c E) as Lc. cbn [under] in Lc. rewrite Nat.eqb_refl in Lc.
  destruct (leads_reach _ _ Lc) as (v & Ev & (y & Ey & ->)). destruct (Nat.eqb_spec k j) as [->|Q].
  - rewrite (first_none (all_but j l)).
    + eexists. split; [reflexivity|]. exists y. cbn [net_at way]. rewrite E, Nat.eqb_refl. split; [exact Ey|]. destruct Hk as [Hk|Hk]; [cbn [under] in Hk; rewrite Nat.eqb_refl in Hk; discriminate Hk|]. subst p. reflexivity.
    + intros d I. apply all_but_in in I. destruct I as (i & Qi & Ei). eexists. split; [exact (leads_claims _ _ (L i d Ei))|]. cbn [under]. destruct (Nat.eqb_spec i j); [contradiction|discriminate].
  - rewrite (first_one (all_but k l) (Some (net_fn y, t))).
    + eexists. split; [reflexivity|]. exists y. cbn [net_at way]. rewrite E. split; [exact Ey|]. destruct (Nat.eqb_spec k j); [contradiction|]. reflexivity.
    + intros d I. apply all_but_in in I. destruct I as (i & Qi & Ei). eexists. split; [exact (leads_claims _ _ (L i d Ei))|]. cbn [under]. destruct (Nat.eqb_spec i j) as [->|_]; [|discriminate].
      rewrite E in Ei. injection Ei as <-. intros _. exact Ev.
    + exists c. split; [apply all_but_in; exists j; auto|]. exact (leads_claims _ _ Lc).
Qed.
Lemma rise_leads o z : leads r o z -> forall sw k p y, net_at z (k :: p) = Some y -> exists v, rise sw false z (k :: p) t = Ok v /\ comes sw (k :: p) o z v.
Proof.
  induction 1 as [o f br l lay B E1 E2 E3 E4 E5 IH]. intros sw k p y Y. cbn [net_at] in Y. destruct (nth_error l k) as [c|] eqn:Ek; [|discriminate Y].
  assert (Hb : br = true) by (destruct br; [reflexivity|]; rewrite (E3 eq_refl) in Ek; destruct k; discriminate Ek). subst br. specialize (E2 eq_refl). cbn [net_bars] in B. cbn [rise]. rewrite Ek.
  assert (W : (under k o = None \/ p = []) /\ rise (negb sw) false c p t = Ok (Passes t) \/
    exists q v, o = Some (k :: q) /\ p <> [] /\ rise (negb sw) false c p t = Ok v /\ comes (negb sw) p (Some q) c v).
  { destruct p as [|k' p']; [left; auto|]. destruct (IH k c Ek (negb sw) k' p' y Y) as (v & Ev & Cv). destruct (under k o) as [q|] eqn:Eu; [|left; cbn [comes] in Cv; subst v; auto]. right.
    destruct o as [[|j q']|]; try discriminate Eu. cbn [under] in Eu. destruct (Nat.eqb_spec k j) as [<-|]; [|discriminate Eu]. injection Eu as <-. exists q', v. repeat split; auto. discriminate. }
  destruct W as [(W1 & W2)|(q & v & Eo & Np & Ev & Cv)].
  - rewrite W2. cbn [bind]. destruct sw.
    + rewrite (switched_eq false f lay k l B), E1, E2. destruct o as [[|j q]|]; cbn [here deeper orb negb andb].
      * eexists. split; [reflexivity|]. exists (Net f true l). split; reflexivity.
      * apply (across k _ l E5 E4 eq_refl); auto.
      * eexists. split; reflexivity.
    + rewrite (through_eq false f lay B), E1, E2. eexists. split; [reflexivity|]. destruct o as [[|j q]|]; cbn [here deeper orb negb andb comes].
      * exists (Net f true l). split; reflexivity.
      * destruct (leads_target _ _ (Leads r _ f true l lay B E1 (fun _ => E2) E3 E4 E5)) as (w & Ew). exists w. split; [exact Ew|]. cbn [way]. destruct (Nat.eqb_spec k j) as [<-|]; [|reflexivity].
        destruct W1 as [W1| -> ]; [cbn [under] in W1; rewrite Nat.eqb_refl in W1; discriminate W1|]. reflexivity.
      * reflexivity.
  - rewrite Ev. cbn [bind]. subst o. destruct Cv as (w & Ew & ->). exists (if way (negb sw) p q then Stops (net_fn w) t else Drops). split; [destruct (way (negb sw) p q); reflexivity|]. exists w. cbn [net_at way]. rewrite Ek, Nat.eqb_refl. auto.
Qed.

(** From a function to the host *)
Lemma host_leads o f lay l k p y : bars f 2 lay r -> (forall i c, nth_error l i = Some c -> leads r (under i o) c) -> (forall j q, o = Some (j :: q) -> exists c, nth_error l j = Some c) -> o <> Some [] ->
  net_at (Net f true l) (k :: p) = Some y -> SpecRoute.own f lay r || negb (behind f r) = negb (some o) ->
  exists v, from_function (Net f true l) (k :: p) t = Ok v /\ comes true (k :: p) o (Net f true l) v.
Proof.
  intros B L E4 No Y Hh. unfold from_function. cbn [net_at] in Y. destruct (nth_error l k) as [c|] eqn:Ek; [|discriminate Y]. cbn [rise]. rewrite Ek. cbn [negb].
  assert (W : (under k o = None \/ p = []) /\ rise false false c p t = Ok (Passes t) \/
    exists q v, o = Some (k :: q) /\ p <> [] /\ rise false false c p t = Ok v /\ comes false p (Some q) c v).
  { destruct p as [|k' p']; [left; auto|]. destruct (rise_leads _ _ (L k c Ek) false k' p' y Y) as (v & Ev & Cv). destruct (under k o) as [q|] eqn:Eu; [|left; cbn [comes] in Cv; subst v; auto]. right.
    destruct o as [[|j q']|]; try discriminate Eu. cbn [under] in Eu. destruct (Nat.eqb_spec k j) as [<-|]; [|discriminate Eu]. injection Eu as <-. exists q', v. repeat split; auto. discriminate. }
  destruct W as [(W1 & W2)|(q & v & Eo & Np & Ev & Cv)].
  - rewrite W2. cbn [bind]. rewrite (switched_eq true f lay k l B), Hh. destruct o as [[|j q]|]; cbn [some negb andb].
    + congruence.
    + apply (across k _ l L E4 eq_refl); auto.
    + eexists. split; reflexivity.
  - rewrite Ev. cbn [bind]. subst o. destruct Cv as (w & Ew & ->). exists (if way false p q then Stops (net_fn w) t else Drops). split; [destruct (way false p q); reflexivity|]. exists w. cbn [net_at way negb]. rewrite Ek, Nat.eqb_refl. auto.
Qed.

(** Nobody is meant *)
Lemma blind_claims z : blind r z -> exists b, net_claims t z = Ok b /\ (b = true -> reach z t = Ok None).
Proof.
  induction 1 as [f br l lay B E1 E2 E3 IH]. eexists. split; [exact (net_claims_eq f br lay l B)|]. intros _. destruct br.
  - rewrite (reach_br f lay l B), E1. destruct (behind f r); [|reflexivity]. apply first_none. intros c I. apply In_nth_error in I. destruct I as [i I]. exact (IH i c I).
  - rewrite (reach_end f lay l B), E1. reflexivity.
Qed.
Lemma blind_rise z : blind r z -> forall sw k p y, net_at z (k :: p) = Some y -> rise sw false z (k :: p) t = Ok (Passes t) \/ rise sw false z (k :: p) t = Ok Drops.
Proof.
  induction 1 as [f br l lay B E1 E2 E3 IH]. intros sw k p y Y. cbn [net_at] in Y. destruct (nth_error l k) as [c|] eqn:Ek; [|discriminate Y].
  assert (Hb : br = true) by (destruct br; [reflexivity|]; rewrite (E2 eq_refl) in Ek; destruct k; discriminate Ek). subst br. cbn [net_bars] in B. cbn [rise]. rewrite Ek.
  assert (W : rise (negb sw) false c p t = Ok (Passes t) \/ rise (negb sw) false c p t = Ok Drops) by (destruct p as [|k' p']; [left; reflexivity|]; exact (IH k c Ek (negb sw) k' p' y Y)).
  destruct W as [W|W]; rewrite W; cbn [bind]; [|right; reflexivity]. destruct sw.
  - rewrite (switched_eq false f lay k l B), E1. cbn [orb negb andb]. destruct (behind f r); cbn [negb]; [|left; reflexivity]. right. rewrite first_none; [reflexivity|].
    intros d I. apply all_but_in in I. destruct I as (i & _ & Ei). exact (blind_claims d (E3 i d Ei)).
  - rewrite (through_eq false f lay B), E1. cbn [orb negb andb]. destruct (behind f r); [right|left]; reflexivity.
Qed.
Lemma host_blind f lay l k p y : bars f 2 lay r -> (forall i c, nth_error l i = Some c -> blind r c) -> net_at (Net f true l) (k :: p) = Some y ->
  SpecRoute.own f lay r = false -> behind f r = true -> from_function (Net f true l) (k :: p) t = Ok Drops.
Proof.
  intros B L Y E1 E2. unfold from_function. cbn [net_at] in Y. destruct (nth_error l k) as [c|] eqn:Ek; [|discriminate Y]. cbn [rise]. rewrite Ek. cbn [negb].
  assert (W : rise false false c p t = Ok (Passes t) \/ rise false false c p t = Ok Drops) by (destruct p as [|k' p']; [left; reflexivity|]; exact (blind_rise c (L k c Ek) false k' p' y Y)).
  destruct W as [W|W]; rewrite W; cbn [bind]; [|reflexivity]. rewrite (switched_eq true f lay k l B), E1, E2. cbn [orb negb]. rewrite first_none; [reflexivity|].
  intros d I. apply all_but_in in I. destruct I as (i & _ & Ei). exact (blind_claims d (L i d Ei)).
Qed.
End Way.
