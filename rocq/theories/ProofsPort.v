From Verif Require Import Base BaseProofs ModelTlp SpecTlp ProofsTlpCodec ModelDllp ModelPort SpecPort.

(** ** Generalities *)
Lemma fc_eqb_eq a b : fc_eqb a b = true <-> a = b.
Proof. destruct a, b; cbn; split; congruence. Qed.
Lemma fc_eqb_refl a : fc_eqb a a = true.
Proof. destruct a; reflexivity. Qed.
Lemma get3_set3 {A} ty ty' (v : A) r : get3 ty (set3 ty' v r) = if fc_eqb ty ty' then v else get3 ty r.
Proof. destruct ty, ty'; reflexivity. Qed.

Definition fcof (k : bool) (ty : fc_type) (c : chan) : fcs := get3 ty (if k then c_dat c else c_hdr c).
Lemma fcof_on k ty ty' fh fd c :
  fcof k ty (on_credits ty' fh fd c) =
  if fc_eqb ty ty' then (if k then fd else fh) (fcof k ty c) else fcof k ty c.
Proof.
  unfold fcof, on_credits. destruct k; cbn [c_hdr c_dat set_credits]; rewrite get3_set3;
  destruct (fc_eqb ty ty') eqn:E; try reflexivity; apply fc_eqb_eq in E; subst; reflexivity.
Qed.
Definition bits (k : bool) : Z := if k then 16 else 12.
Definition width (k : bool) : Z := 2 ^ bits k.
Lemma width_pos k : 0 < width k.
Proof. destruct k; reflexivity. Qed.
Lemma land_mask k x : Z.land x (2 ^ bits k - 1) = x mod width k.
Proof.
  replace (2 ^ bits k - 1) with (Z.ones (bits k)) by (rewrite Z.ones_equiv; lia).
  apply Z.land_ones. destruct k; discriminate.
Qed.
Lemma land_fff x : Z.land x 0xfff = x mod 4096.
Proof. change 0xfff with (Z.ones 12). rewrite Z.land_ones by discriminate. reflexivity. Qed.

(** Values that were announced at non-decreasing counts between [lo] and [hi]. *)
Fixpoint chain (v : Z -> Z) (lo : Z) (l : list Z) (hi : Z) : Prop :=
  match l with [] => lo <= hi | x :: r => exists f, lo <= f /\ x = v f /\ chain v f r hi end.
Lemma chain_le v l : forall lo hi, chain v lo l hi -> lo <= hi.
Proof.
  induction l as [|x l IH]; cbn; intros lo hi H; auto. destruct H as (f & H1 & _ & H3).
  apply IH in H3. lia.
Qed.
Lemma chain_lower v l : forall lo lo' hi, chain v lo l hi -> lo' <= lo -> chain v lo' l hi.
Proof. destruct l as [|x l]; cbn; intros lo lo' hi H L; [lia|]. destruct H as (f & H1 & H2). exists f. split; [lia|auto]. Qed.
Lemma chain_upper v l : forall lo hi hi', chain v lo l hi -> hi <= hi' -> chain v lo l hi'.
Proof.
  induction l as [|x l IH]; cbn; intros lo hi hi' H L; [lia|]. destruct H as (f & H1 & H2 & H3).
  exists f. eauto.
Qed.
Lemma chain_snoc v l : forall lo hi x, chain v lo l hi -> x = v hi -> chain v lo (l ++ [x]) hi.
Proof.
  induction l as [|y l IH]; cbn; intros lo hi x H ->.
  - exists hi. repeat split; auto. lia.
  - destruct H as (f & H1 & H2 & H3). exists f. repeat split; auto.
Qed.
Lemma chain_tail v x l lo hi : chain v lo (x :: l) hi -> chain v lo l hi.
Proof. intros (f & H1 & _ & H3). eapply chain_lower; eauto. Qed.

(** ** Credits *)
Lemma creds_nonneg k ty t : 0 <= credits k ty t.
Proof.
  unfold credits. destruct fc_class; [|lia]. destruct fc_eqb; [|lia]. destruct k; [|lia].
  assert (0 <= zlen (data t)) by (unfold zlen; lia). apply Z.div_pos; [|lia].
  assert (0 <= zlen (data t) / 4) by (apply Z.div_pos; lia). lia.
Qed.
Lemma sum_app k ty l m : sum_credits k ty (l ++ m) = sum_credits k ty l + sum_credits k ty m.
Proof. induction l; cbn; lia. Qed.
Lemma sum_nonneg k ty l : 0 <= sum_credits k ty l.
Proof. induction l; cbn; [lia|]. pose proof (creds_nonneg k ty a). lia. Qed.
Definition classed (t : tlp) : Prop := exists ty, get_fc_type t = Ok ty.
Lemma fc_type_classed t ty : get_fc_type t = Ok ty -> fc_class (fmt t) (type_ t) = Some ty.
Proof.
  intros H. unfold get_fc_type in H. destruct (fmt_type t) as [y|] eqn:E; [|discriminate].
  pose proof (fc_type_class y t E) as C. unfold get_fc_type in C. rewrite E in C.
  cbn in H, C. destruct fc_class; rewrite H in C; [injection C as ->; reflexivity|discriminate].
Qed.
Lemma credits_of k ty t c : get_fc_type t = Ok c ->
  credits k ty t = if fc_eqb ty c then if k then get_data_credits t else 1 else 0.
Proof.
  intros H. apply fc_type_classed in H. unfold credits. rewrite H.
  replace (fc_eqb ty c) with (fc_eqb c ty) by (destruct c, ty; reflexivity). reflexivity.
Qed.
Lemma credits_seq k ty n t : credits k ty (set_seq n t) = credits k ty t.
Proof. reflexivity. Qed.
Lemma credits_copy k ty t : credits k ty (tlp_copy t) = credits k ty t.
Proof. reflexivity. Qed.
Lemma sum_copy k ty l : sum_credits k ty (map tlp_copy l) = sum_credits k ty l.
Proof. induction l; cbn [map sum_credits]; [reflexivity|]. rewrite credits_copy, IHl. reflexivity. Qed.
Lemma classed_seq n t : classed t -> classed (set_seq n t).
Proof. intros [ty H]. exists ty. exact H. Qed.
Lemma classed_copy t : classed t -> classed (tlp_copy t).
Proof. intros [ty H]. exists ty. exact H. Qed.

Lemma freed_nonneg k ty rel l : forall n, 0 <= freed k ty rel n l.
Proof. induction l as [|t l IH]; cbn; intros n; [lia|]. pose proof (creds_nonneg k ty t). pose proof (IH (S n)). destruct (rel n); lia. Qed.
Lemma freed_le k ty rel l : forall n, freed k ty rel n l <= sum_credits k ty l.
Proof. induction l as [|t l IH]; cbn; intros n; [lia|]. pose proof (creds_nonneg k ty t). pose proof (IH (S n)). destruct (rel n); lia. Qed.
Lemma freed_snoc k ty rel l t : forall n, rel (n + length l)%nat = false ->
  freed k ty rel n (l ++ [t]) = freed k ty rel n l.
Proof.
  induction l as [|x l IH]; cbn; intros n H.
  - rewrite Nat.add_0_r in H. rewrite H. lia.
  - rewrite IH; [reflexivity|]. rewrite Nat.add_succ_comm. exact H.
Qed.
Lemma freed_ext k ty rel rel' l : forall n, (forall i, (i < n + length l)%nat -> rel i = rel' i) ->
  freed k ty rel n l = freed k ty rel' n l.
Proof.
  induction l as [|x l IH]; cbn; intros n H; [reflexivity|].
  rewrite (H n) by lia. rewrite (IH (S n)); [reflexivity|]. intros i L. apply H. lia.
Qed.

(** Releasing the n-th. *)
Definition also (rel : nat -> bool) (n : nat) : nat -> bool := fun i => rel i || Nat.eqb i n.
Lemma freed_also_ge k ty rel n l : forall m, (n < m)%nat -> freed k ty (also rel n) m l = freed k ty rel m l.
Proof.
  induction l as [|x l IH]; cbn; intros m H; [reflexivity|].
  rewrite IH by lia. unfold also at 1. replace (Nat.eqb m n) with false by (symmetry; apply Nat.eqb_neq; lia).
  rewrite orb_false_r. reflexivity.
Qed.
Lemma freed_also k ty rel n l t : forall m, nth_error l (n - m) = Some t -> (m <= n)%nat -> rel n = false ->
  freed k ty (also rel n) m l = freed k ty rel m l + credits k ty t.
Proof.
  induction l as [|x l IH]; cbn; intros m H L E; [destruct (n - m)%nat; discriminate|].
  unfold also at 1. destruct (Nat.eqb_spec m n) as [->|N].
  - rewrite Nat.sub_diag in H. injection H as ->. rewrite E. cbn. rewrite freed_also_ge by lia. lia.
  - rewrite orb_false_r. replace (n - m)%nat with (S (n - S m)) in H by lia.
    rewrite (IH (S m)) by (auto; lia). lia.
Qed.

(** The release dictionary holds what is received and not released. *)
Fixpoint unreleased (rel : nat -> bool) (n : nat) (l : list tlp) : list (nat * (fc_type * Z)) :=
  match l with
  | [] => []
  | t :: r =>
    let rest := unreleased rel (S n) r in
    if rel n then rest
    else match get_fc_type t with Ok ty => (n, (ty, get_data_credits t)) :: rest | Err _ => rest end
  end.
Lemma unreleased_ge rel l : forall n x, In x (unreleased rel n l) -> (n <= fst x)%nat.
Proof.
  induction l as [|t l IH]; cbn; intros n x H; [contradiction|].
  destruct (rel n); [apply IH in H; lia|].
  destruct (get_fc_type t); [|apply IH in H; lia].
  destruct H as [<-|H]; [cbn; lia|apply IH in H; lia].
Qed.
Lemma unreleased_snoc rel l t ty : forall n, get_fc_type t = Ok ty -> rel (n + length l)%nat = false ->
  unreleased rel n (l ++ [t]) = unreleased rel n l ++ [((n + length l)%nat, (ty, get_data_credits t))].
Proof.
  induction l as [|x l IH]; cbn; intros n H R.
  - rewrite Nat.add_0_r in *. rewrite R, H. reflexivity.
  - rewrite (IH (S n)) by (rewrite ?Nat.add_succ_comm; auto).
    rewrite Nat.add_succ_comm.
    destruct (rel n); [reflexivity|]. destruct (get_fc_type x); reflexivity.
Qed.
Lemma unreleased_ext rel rel' l : forall n, (forall i, (i < n + length l)%nat -> rel i = rel' i) ->
  unreleased rel n l = unreleased rel' n l.
Proof.
  induction l as [|x l IH]; cbn; intros n H; [reflexivity|].
  rewrite (H n) by lia. rewrite (IH (S n)); [reflexivity|]. intros i L. apply H. lia.
Qed.
Lemma filter_ge n l : (forall x : nat * (fc_type * Z), In x l -> (n < fst x)%nat) ->
  filter (fun x => negb (Nat.eqb n (fst x))) l = l.
Proof.
  induction l as [|x l IH]; cbn; intros H; [reflexivity|].
  replace (Nat.eqb n (fst x)) with false by (symmetry; apply Nat.eqb_neq; specialize (H x (or_introl eq_refl)); lia).
  cbn. rewrite IH; auto.
Qed.
Lemma unreleased_also rel l n : forall m,
  unreleased (also rel n) m l = filter (fun x => negb (Nat.eqb n (fst x))) (unreleased rel m l).
Proof.
  induction l as [|t l IH]; cbn [unreleased filter]; intros m; [reflexivity|].
  unfold also at 1. rewrite IH. destruct (rel m); [reflexivity|]. cbn [orb].
  destruct (Nat.eqb_spec m n) as [->|N].
  - destruct (get_fc_type t); [|reflexivity]. cbn [filter fst]. rewrite Nat.eqb_refl. reflexivity.
  - destruct (get_fc_type t); [|reflexivity]. cbn [filter fst].
    replace (Nat.eqb n m) with false by (symmetry; apply Nat.eqb_neq; lia). reflexivity.
Qed.
Lemma rel_find_none n l : (forall x, In x l -> fst x <> n) -> rel_find n l = None.
Proof.
  induction l as [|[m v] l IH]; cbn; intros H; [reflexivity|].
  destruct (Nat.eqb_spec n m) as [->|_]; [specialize (H _ (or_introl eq_refl)); cbn in H; congruence|auto].
Qed.
Lemma rel_find_unreleased rel l n : forall m, Forall classed l -> (m <= n < m + length l)%nat ->
  rel_find n (unreleased rel m l) =
  if rel n then None
  else match nth_error l (n - m) with
       | Some t => match get_fc_type t with Ok ty => Some (ty, get_data_credits t) | Err _ => None end
       | None => None
       end.
Proof.
  induction l as [|t l IH]; cbn [unreleased length]; intros m C L; [lia|].
  destruct (Forall_inv C) as [ty Ht]. pose proof (Forall_inv_tail C) as C'.
  destruct (Nat.eq_dec m n) as [->|N].
  - rewrite Nat.sub_diag. cbn [nth_error]. rewrite Ht. destruct (rel n) eqn:E.
    + apply rel_find_none. intros x H. apply unreleased_ge in H. lia.
    + cbn. rewrite Nat.eqb_refl. reflexivity.
  - replace (n - m)%nat with (S (n - S m)) by lia. cbn [nth_error].
    rewrite <- (IH (S m)) by (auto; lia).
    destruct (rel m); [reflexivity|]. rewrite Ht. cbn.
    replace (Nat.eqb n m) with false by (symmetry; apply Nat.eqb_neq; lia). reflexivity.
Qed.
