From Coq Require Import Permutation.
From Verif Require Import Base BaseProofs ModelTlp SpecTlp ModelDllp ModelPort SpecPort ProofsPort ProofsPortInv ProofsPortSys ProofsPortObs.

Lemma reach_inv ia ib st : reach ia ib st -> sysinv (adv_of ia ib) st.
Proof.
  intros (da & db & steps & s0 & es & H0 & Hr). apply link_new_inv in H0.
  destruct (run_inv _ es _ H0) as (st' & Hr' & I). rewrite Hr in Hr'. injection Hr' as <-. exact I.
Qed.
Lemma run_app es es' : forall st, run (es ++ es') st = bind (run es st) (run es').
Proof. induction es as [|e es IH]; intros st; cbn [run app]; [reflexivity|]. destruct (step e st); cbn [bind]; auto. Qed.
Lemma reach_run ia ib es st st' : reach ia ib st -> run es st = Ok st' -> reach ia ib st'.
Proof.
  intros (da & db & steps & s0 & es0 & H0 & Hr) H. exists da, db, steps, s0, (es0 ++ es). split; [exact H0|].
  rewrite run_app, Hr. exact H.
Qed.
Lemma run_ok ia ib es st : reach ia ib st -> exists st', run es st = Ok st'.
Proof. intros R. destruct (run_inv _ es _ (reach_inv _ _ _ R)) as (st' & H & _). eauto. Qed.

(** ** C15 *)
Lemma no_overrun ia ib st s k ty : reach ia ib st ->
  advertised ia ib k ty (negb s) = 0 \/ in_use k ty s (s_log st) <= advertised ia ib k ty (negb s).
Proof.
  intros R. destruct (reach_inv _ _ _ R s) as [D _]. pose proof (d_fc _ _ _ _ _ _ _ _ _ _ D k ty) as F. cbv zeta in F.
  destruct F as (_ & _ & _ & _ & _ & _ & f0 & _ & C & U & _). apply chain_le in C. unfold in_use, adv_of in *. lia.
Qed.
Lemma gate_sound ia ib st s k ty : reach ia ib st -> c_fi2 (p_ch (s_port st s)) = true ->
  advertised ia ib k ty (negb s) = 0 \/
  tx_credits_available (fcof k ty (p_ch (s_port st s))) <= advertised ia ib k ty (negb s) - in_use k ty s (s_log st).
Proof.
  intros R H2. destruct (reach_inv _ _ _ R s) as [D _]. pose proof (d_fc _ _ _ _ _ _ _ _ _ _ D k ty) as F. cbv zeta in F.
  destruct (d_flags _ _ _ _ _ _ _ _ _ _ D) as (_ & _ & G1 & G2). rewrite (G1 H2) in G2. symmetry in G2.
  apply andb_prop in G2. destruct G2 as [G2 G3]. apply andb_prop in G2. destruct G2 as [G2 G4].
  assert (G : get3 ty (c_fi1t (p_ch (s_port st s))) = true) by (destruct ty; assumption). rewrite G in F.
  destruct F as (_ & B & _ & _ & _ & _ & f0 & _ & C & [U|U] & E1 & E2 & E3); [left; exact U|].
  destruct (Z.eq_dec (adv_of ia ib (negb s) k ty) 0) as [Z|Z]; [left; exact Z|right].
  apply chain_le in C. pose proof (avail_le _ _ _ _ _ B E1 E2 E3 Z U). unfold in_use, adv_of in *. lia.
Qed.
(** What is stored in the buffers of the receiver. *)
Lemma used_received ia ib st s k ty : reach ia ib st ->
  sum_credits k ty (received (negb s) (s_log st)) <= sum_credits k ty (gated s (s_log st)).
Proof.
  intros R. destruct (reach_inv _ _ _ R s) as [D _].
  rewrite (d_gate _ _ _ _ _ _ _ _ _ _ D). destruct (d_deliv _ _ _ _ _ _ _ _ _ _ D) as (x & -> & ->).
  rewrite sum_copy, sum_app.
  pose proof (sum_nonneg k ty (tlps (on_wire st s))). pose proof (sum_nonneg k ty (p_txq (s_port st s))).
  pose proof (sum_nonneg k ty (p_pend (s_port st s))). lia.
Qed.
Lemma freed_used adv st s k ty : sysinv adv st ->
  freed k ty (released (negb s) (s_log st)) 0 (received (negb s) (s_log st)) <= sum_credits k ty (gated s (s_log st)).
Proof.
  intros I. destruct (I s) as [D _].
  rewrite (d_gate _ _ _ _ _ _ _ _ _ _ D). eapply Z.le_trans; [apply freed_le|].
  destruct (d_deliv _ _ _ _ _ _ _ _ _ _ D) as (x & -> & ->).
  rewrite sum_copy, sum_app.
  pose proof (sum_nonneg k ty (tlps (on_wire st s))). pose proof (sum_nonneg k ty (p_txq (s_port st s))).
  pose proof (sum_nonneg k ty (p_pend (s_port st s))). lia.
Qed.

Lemma received_fits ia ib st s k ty : reach ia ib st ->
  advertised ia ib k ty s = 0 \/
  sum_credits k ty (received s (s_log st)) - freed k ty (released s (s_log st)) 0 (received s (s_log st))
    <= advertised ia ib k ty s.
Proof.
  intros R. pose proof (no_overrun _ _ _ (negb s) k ty R) as N. pose proof (used_received _ _ _ (negb s) k ty R) as U.
  unfold in_use in N. rewrite negb_involutive in N, U. lia.
Qed.
Lemma gate_room ia ib st st' s t k ty : reach ia ib st -> step (EGate s t) st = Ok st' ->
  gated s (s_log st') = gated s (s_log st) ++ [t] ->
  advertised ia ib k ty (negb s) = 0 \/
  credits k ty t <= advertised ia ib k ty (negb s) - in_use k ty s (s_log st).
Proof.
  intros R H G.
  assert (R' : reach ia ib st') by (eapply (reach_run _ _ [EGate s t]); [exact R|cbn [run]; rewrite H; reflexivity]).
  destruct (no_overrun _ _ _ s k ty R') as [N|N]; [left; exact N|right].
  unfold in_use in N. rewrite G, sum_app in N. cbn [sum_credits] in N. unfold in_use.
  assert (E : received (negb s) (s_log st') = received (negb s) (s_log st) /\
    freed k ty (released (negb s) (s_log st')) 0 (received (negb s) (s_log st)) =
    freed k ty (released (negb s) (s_log st)) 0 (received (negb s) (s_log st))).
  { cbn [step] in H. destruct (tx_gate t (s_port st s)); injection H as <-; [|auto]. cbn [sys_port s_log].
    rewrite received_app. cbn. rewrite app_nil_r. split; [reflexivity|]. apply freed_ext. intros i _. rewrite released_app. cbn. apply orb_false_r. }
  destruct E as [E1 E2]. rewrite E1, E2 in N. lia.
Qed.

(** ** C16 *)
Lemma rx_counters ia ib st s k ty : reach ia ib st ->
  rx_credits_available (fcof k ty (p_ch (s_port st s))) =
  if advertised ia ib k ty s =? 0 then 2 ^ bits k - 1
  else advertised ia ib k ty s -
       (sum_credits k ty (received s (s_log st)) - freed k ty (released s (s_log st)) 0 (received s (s_log st))).
Proof.
  intros R. destruct (reach_inv _ _ _ R (negb s)) as [D _]. unfold dinv in D. rewrite negb_involutive in D.
  pose proof (d_fc _ _ _ _ _ _ _ _ _ _ D k ty) as F. cbv zeta in F.
  pose proof (no_overrun _ _ _ (negb s) k ty R) as N. rewrite negb_involutive in N.
  pose proof (used_received _ _ _ (negb s) k ty R) as U. rewrite negb_involutive in U.
  unfold adv_of, in_use in *. rewrite negb_involutive in N.
  destruct F as (I1 & _ & B & E0 & E1 & E2 & _).
  unfold rx_credits_available, rx_is_infinite, f_mask. rewrite E0, B, E1, E2, land_mask. unfold annd, cnt.
  destruct (Z.eqb_spec (advertised ia ib k ty s) 0) as [Z|Z]; [reflexivity|].
  rewrite <- Zminus_mod.
  pose proof (freed_le k ty (released s (s_log st)) (received s (s_log st)) 0) as L.
  destruct N as [N|N]; [contradiction|].
  set (A := advertised ia ib k ty s) in *. set (f := freed _ _ _ _ _) in *. set (r := sum_credits k ty (received s _)) in *.
  replace (A + f - r) with (A - (r - f)) by lia.
  apply Z.mod_small. pose proof (width_pos k). pose proof (Z.div_le_upper_bound (width k) 2 (width k)). lia.
Qed.
Lemma release_again adv st s n st' : sysinv adv st -> released s (s_log st) n = true ->
  step (ERelease s n) st = Ok st' ->
  (forall a, s_port st' a = s_port st a) /\ (forall a, s_flight st' a = s_flight st a) /\ s_now st' = s_now st.
Proof.
  intros I Rl H. cbn [step] in H. destruct (I (negb s)) as [D _]. unfold dinv in D. rewrite negb_involutive in D.
  destruct (n <? c_tok (p_ch (s_port st s)))%nat eqn:Ln; [|injection H as <-; auto]. apply Nat.ltb_lt in Ln.
  unfold rx_release_fc_token in H. rewrite (d_rel _ _ _ _ _ _ _ _ _ _ D) in H.
  rewrite (d_tok _ _ _ _ _ _ _ _ _ _ D) in Ln.
  rewrite rel_find_unreleased in H; [|..].
  - rewrite Rl in H. injection H as <-. cbn [sys_port s_port s_flight s_now]. split; [|auto].
    intros a. unfold upd. destruct (Bool.eqb a s) eqn:E; [apply eqb_prop in E; subst a|]; reflexivity.
  - destruct (d_deliv _ _ _ _ _ _ _ _ _ _ D) as (x & Hx & ->). destruct (d_cls _ _ _ _ _ _ _ _ _ _ D) as [C _].
    rewrite Hx in C. apply Forall_app in C. destruct C as [C _]. rewrite Forall_map. eapply Forall_impl; [|exact C]. apply classed_copy.
  - lia.
Qed.

(** FIFO of the DLLPs. *)
Lemma dllps_app l m : dllps (l ++ m) = dllps l ++ dllps m. Proof. apply flat_map_app. Qed.
Lemma sent_app s l m : dllps_sent s (l ++ m) = dllps_sent s l ++ dllps_sent s m. Proof. apply flat_map_app. Qed.
Lemma recvd_app s l m : dllps_received s (l ++ m) = dllps_received s l ++ dllps_received s m. Proof. apply flat_map_app. Qed.
Definition fifo (st : sys) (a : bool) : Prop :=
  dllps_sent a (s_log st) = dllps_received (negb a) (s_log st) ++ dllps (on_wire st a).
Lemma step_fifo adv e st st' a : sysinv adv st -> step e st = Ok st' -> fifo st a -> fifo st' a.
Proof.
  intros I H F. destruct (step_eff _ _ _ _ I H) as (l & Hl & W & P). unfold fifo in *. rewrite Hl, sent_app, recvd_app, F.
  specialize (W a). destruct l as [|e0 [|? ?]]; [cbn in W; rewrite W; cbn; rewrite !app_nil_r; reflexivity| |].
  2:{ destruct e0; contradiction. }
  destruct e0 as [b t|b t|b t|b t|b n|b d|b d]; cbn [wire_eff] in W; cbn [dllps_sent dllps_received flat_map].
  - rewrite W, !app_nil_r. reflexivity.
  - destruct (Bool.eqb b a); rewrite W; rewrite ?dllps_app; cbn; rewrite !app_nil_r; reflexivity.
  - destruct (Bool.eqb b a); [|destruct W as [t0 W]]; rewrite W; cbn; rewrite !app_nil_r; reflexivity.
  - rewrite W, !app_nil_r. reflexivity.
  - rewrite W, !app_nil_r. reflexivity.
  - destruct (Bool.eqb b a); rewrite W, ?dllps_app; cbn; rewrite !app_nil_r, ?app_assoc; reflexivity.
  - destruct a, b; cbn [Bool.eqb negb] in *; rewrite W; cbn; rewrite !app_nil_r, <- ?app_assoc; reflexivity.
Qed.
Lemma fifo_reach ia ib st a : reach ia ib st -> fifo st a.
Proof.
  intros (da & db & steps & s0 & es & H0 & Hr). pose proof (link_new_inv _ _ _ _ _ _ H0) as I0.
  assert (F0 : fifo s0 a).
  { unfold link_new in H0. destruct (port_new ia da steps) as [p1|] eqn:E1; [|discriminate]. destruct (port_new ib db steps) as [p2|] eqn:E2; [|discriminate].
    cbn [bind] in H0. injection H0 as <-. unfold fifo, on_wire. cbn [s_flight s_port s_log].
    unfold port_new in E1, E2. destruct (chan_new ia true); [|discriminate]. destruct (chan_new ib true); [|discriminate].
    injection E1 as <-. injection E2 as <-. destruct a; reflexivity. }
  clear H0. revert s0 I0 F0 Hr. induction es as [|e es IH]; intros s0 I0 F0 Hr; cbn [run] in Hr; [injection Hr as <-; exact F0|].
  destruct (step_inv _ e s0 I0) as (s1 & E1 & I1). rewrite E1 in Hr. cbn [bind] in Hr. eauto using step_fifo.
Qed.

(** The credit updates announce what was freed when they were sent, and the last one to arrive counts. *)
Definition free_at (k : bool) ty (s : bool) (l : list entry) : Z := freed k ty (released (negb s) l) 0 (received (negb s) l).
Lemma freed_mono k ty rel rel' l m : forall n, (forall i, rel i = true -> rel' i = true) ->
  freed k ty rel n l <= freed k ty rel' n (l ++ m).
Proof.
  induction l as [|t l IH]; intros n H; cbn [freed app]; [apply freed_nonneg|].
  specialize (IH (S n) H). specialize (H n). pose proof (creds_nonneg k ty t).
  destruct (rel n), (rel' n); try lia.
Qed.
Lemma free_at_mono k ty s l m : free_at k ty s l <= free_at k ty s (l ++ m).
Proof.
  unfold free_at. rewrite received_app. apply freed_mono. intros i H. rewrite released_app, H. reflexivity.
Qed.
Lemma step_log_app adv e st st' : sysinv adv st -> step e st = Ok st' -> exists l, s_log st' = s_log st ++ l.
Proof. intros I H. destruct (step_eff _ _ _ _ I H) as (l & Hl & _). eauto. Qed.
Lemma is_update_fc ty d : is_update ty d = true -> d_type d = update_code ty.
Proof. unfold is_update. intros H. apply Z.eqb_eq in H. destruct ty; exact H. Qed.

(** The invariant of an extension of the log by [l], during which side [s] sends nothing of the class. *)
Definition last_val (k : bool) (ty : fc_type) (v : Z) (l : list dllp) : Z :=
  fold_left (fun v d => if is_update ty d then dllp_val k d else v) l v.
Record ext adv (k : bool) ty (s : bool) (st st' : sys) (l : list entry) : Prop := mkExt {
  e_inv : sysinv adv st';
  e_log : s_log st' = s_log st ++ l;
  e_fi2 : c_fi2 (p_ch (s_port st' s)) = true;
  e_lim : tx_limit (fcof k ty (p_ch (s_port st' s))) =
          last_val k ty (tx_limit (fcof k ty (p_ch (s_port st s)))) (dllps_received s l);
  e_val : forall d, In d (dllps_sent (negb s) l) -> is_update ty d = true -> exists l1 l2, l = l1 ++ l2 /\
          dllp_val k d = annd k (adv (negb s) k ty) (free_at k ty s (s_log st ++ l1)) /\
          free_at k ty s (s_log st ++ l1) <= sum_credits k ty (gated s (s_log st ++ l1)) }.
Lemma last_val_app k ty v l m : last_val k ty v (l ++ m) = last_val k ty (last_val k ty v l) m.
Proof. apply fold_left_app. Qed.
Lemma fcof_nofc k ty d c c' : handle_fc_dllp d c = Ok c' -> c_fi2 c = true -> c_fi1 c = true -> c_active c = true ->
  c_fi2 c' = true /\ tx_limit (fcof k ty c') = if is_update ty d then dllp_val k d else tx_limit (fcof k ty c).
Proof.
  intros H F2 F1 A. unfold handle_fc_dllp in H. rewrite A, F1, F2 in H. cbn [negb] in H.
  destruct (zmem (d_type d) d_update_types) eqn:Z.
  - destruct (dllp_fc_type (d_type d)) as [ty'|] eqn:T; [|discriminate]. cbn [bind] in H.
    destruct (py_assert _); [|discriminate]. cbn [bind] in H. destruct (py_assert _); [|discriminate]. cbn [bind] in H.
    injection H as <-. split; [exact F2|]. rewrite fcof_on.
    assert (U : is_update ty d = fc_eqb ty ty').
    { unfold is_update. revert T Z. unfold zmem, d_update_types. cbn [existsb]. intros T Z.
      repeat match type of Z with (?x || _) = true => destruct x eqn:?; cbn [orb] in Z end; try discriminate;
      match goal with X : (?a =? ?b) = true |- _ => apply Z.eqb_eq in X; rewrite <- ?X in *; rewrite ?X in * end;
      cbn in T; injection T as <-; destruct ty; reflexivity. }
    rewrite U. destruct (fc_eqb ty ty'); [|reflexivity]. destruct k; reflexivity.
  - injection H as <-. split; [exact F2|].
    destruct (is_update ty d) eqn:U; [|reflexivity]. apply is_update_fc in U. rewrite U in Z. destruct ty; discriminate Z.
Qed.
Lemma handle_limit k ty d p p' : handle_dllp d p = Ok p' -> d_vc d = 0 \/ d_type d = D_ACK -> c_fi2 (p_ch p) = true -> c_fi1 (p_ch p) = true ->
  c_active (p_ch p) = true ->
  c_fi2 (p_ch p') = true /\ tx_limit (fcof k ty (p_ch p')) = if is_update ty d then dllp_val k d else tx_limit (fcof k ty (p_ch p)).
Proof.
  intros H V F2 F1 A. unfold handle_dllp in H.
  assert (NU : (forall ty, d_type d <> update_code ty) -> is_update ty d = false).
  { intros N. destruct (is_update ty d) eqn:U; [|reflexivity]. apply is_update_fc in U. apply N in U. contradiction. }
  destruct (Z.eqb_spec (d_type d) D_NOP) as [T|T].
  - injection H as <-. split; [exact F2|]. rewrite NU; [reflexivity|]. intros x. rewrite T. destruct x; discriminate.
  - destruct (zmem (d_type d) d_seq_types) eqn:Sq.
    + assert (N : is_update ty d = false).
      { apply NU. intros x T'. rewrite T' in Sq. destruct x; discriminate Sq. }
      rewrite N.
      destruct (Z.land _ _ >? 2048); [injection H as <-; auto|]. destruct (Z.land _ _ >? 2048); [injection H as <-; auto|].
      destruct (purge _ _ _) as [[x y]|]; [|discriminate]. cbn [bind] in H. destruct (d_type d =? D_NAK); [discriminate|].
      injection H as <-. auto.
    + destruct (zmem (d_type d) d_fc_types); [|discriminate].
      destruct V as [V|V]; [|rewrite V in Sq; discriminate]. rewrite V in H. cbn [Z.eqb] in H.
      destruct (handle_fc_dllp d (p_ch p)) as [c|] eqn:E; [|discriminate]. cbn [bind] in H. injection H as <-.
      cbn [p_ch set_p_ch]. eapply fcof_nofc; eauto.
Qed.
Lemma other_side b s : b <> s -> negb b = s.
Proof. destruct b, s; cbn; congruence. Qed.
Lemma ext_step adv k ty s st st1 st2 l e : ext adv k ty s st st1 l -> step e st1 = Ok st2 ->
  exists m, ext adv k ty s st st2 (l ++ m).
Proof.
  intros [I L F2 Lim V] H. destruct (step_eff _ _ _ _ I H) as (m & Hm & W & P).
  destruct (step_inv _ e _ I) as (st2' & H' & I2). rewrite H in H'. injection H' as <-.
  exists m. constructor; auto.
  - rewrite Hm, L, app_assoc. reflexivity.
  - destruct m as [|e0 [|? ?]]; [destruct (P s); congruence| |destruct e0; contradiction].
    destruct e0 as [b t|b t|b t|b t|b n|b d|b d]; cbn [port_eff] in P; try (destruct (P s); congruence).
    + destruct P as [P1 (q & P2 & P3)]. destruct (Bool.bool_dec b s) as [->|N].
      * destruct P2, P3. cbn in *. congruence.
      * rewrite (other_side _ _ N) in P1. destruct P1. congruence.
    + destruct P as [P _]. destruct (P s). congruence.
    + destruct P as [P1 P2]. destruct (Bool.bool_dec b s) as [->|N].
      * destruct (I s) as [D _]. destruct (d_flags _ _ _ _ _ _ _ _ _ _ D) as (G1 & _ & G2 & _).
        destruct (I (negb s)) as [D2 _]. pose proof (d_out _ _ _ _ _ _ _ _ _ _ D2) as O.
        specialize (W (negb s)). cbn [wire_eff] in W. rewrite eqb_negb2 in W. rewrite W in O. apply Forall_inv in O.
        eapply (handle_limit k ty); eauto. cbn in O. tauto.
      * rewrite (other_side _ _ N) in P1. destruct P1. congruence.
  - rewrite recvd_app, last_val_app, <- Lim.
    destruct m as [|e0 [|? ?]]; [destruct (P s); cbn; auto| |destruct e0; contradiction].
    destruct e0 as [b t|b t|b t|b t|b n|b d|b d]; cbn [port_eff] in P; cbn [dllps_received flat_map app last_val fold_left]; try (destruct (P s); auto; fail).
    + destruct P as [P1 (q & P2 & P3)]. destruct (Bool.bool_dec b s) as [->|N].
      * rewrite (x_lim _ _ P3). apply (x_lim _ _ P2).
      * rewrite (other_side _ _ N) in P1. destruct P1. auto.
    + destruct P as [P _]. destruct (P s). auto.
    + destruct P as [P1 P2]. destruct (Bool.bool_dec b s) as [->|N].
      * destruct (I s) as [D _]. destruct (d_flags _ _ _ _ _ _ _ _ _ _ D) as (G1 & _ & G2 & _).
        destruct (I (negb s)) as [D2 _]. pose proof (d_out _ _ _ _ _ _ _ _ _ _ D2) as O.
        specialize (W (negb s)). cbn [wire_eff] in W. rewrite eqb_negb2 in W. rewrite W in O. apply Forall_inv in O.
        rewrite eqb_reflx. cbn [app fold_left].
        eapply (handle_limit k ty); eauto. cbn in O. tauto.
      * replace (Bool.eqb b s) with false by (destruct b, s; cbn; congruence). cbn.
        rewrite (other_side _ _ N) in P1. destruct P1. auto.
  - intros d Hd U. rewrite sent_app in Hd. apply in_app_or in Hd. destruct Hd as [Hd|Hd].
    + destruct (V d Hd U) as (l1 & l2 & -> & V1 & V2). exists l1, (l2 ++ m). rewrite app_assoc. auto.
    + destruct m as [|e0 [|? ?]]; [contradiction| |destruct e0; contradiction].
      destruct e0 as [b t|b t|b t|b t|b n|b d'|b d']; cbn [dllps_sent flat_map app] in Hd; try contradiction.
      destruct (Bool.eqb b (negb s)) eqn:Eb; [|contradiction]. apply eqb_prop in Eb. subst b.
      destruct Hd as [<-|[]]. exists l, [LDllpTx (negb s) d']. split; [reflexivity|]. rewrite <- L.
      split; [|eapply freed_used; exact I].
      destruct P as [_ [->|(code & ty' & T & ->)]]; [apply is_update_fc in U; destruct ty; discriminate U|].
      apply is_update_fc in U. cbn [d_type fc_dllp] in U. subst code.
      assert (ty' = ty) by (destruct ty; cbn in T; injection T; auto). subst ty'.
      destruct (I s) as [D _]. pose proof (d_fc _ _ _ _ _ _ _ _ _ _ D k ty) as F. cbv zeta in F.
      destruct F as (_ & _ & _ & _ & F & _). unfold free_at. rewrite <- F. unfold fcof. destruct k; reflexivity.
Qed.
Lemma ext_run adv k ty s st es : forall st1 st2 l, ext adv k ty s st st1 l -> run es st1 = Ok st2 ->
  exists m, ext adv k ty s st st2 (l ++ m).
Proof.
  induction es as [|e es IH]; intros st1 st2 l X H; cbn [run] in H.
  - injection H as <-. exists []. rewrite app_nil_r. exact X.
  - destruct (step e st1) as [st1'|] eqn:E; [|discriminate]. cbn [bind] in H.
    destruct (ext_step _ _ _ _ _ _ _ _ _ X E) as [m X']. destruct (IH _ _ _ X' H) as [m' X2].
    exists (m ++ m'). rewrite app_assoc. exact X2.
Qed.
Lemma last_val_in k ty v l x : (forall d, In d (filter (is_update ty) l) -> dllp_val k d = x) ->
  filter (is_update ty) l <> [] -> last_val k ty v l = x.
Proof.
  revert v. induction l as [|d l IH]; intros v A N; [contradiction|]. cbn [filter] in *. cbn [last_val fold_left].
  destruct (is_update ty d) eqn:U.
  - destruct (filter (is_update ty) l) as [|y r] eqn:E.
    + specialize (A d (or_introl eq_refl)). rewrite A. clear -E. revert x. induction l as [|z l IH]; intros x; [reflexivity|].
      cbn [filter] in E. cbn [fold_left]. destruct (is_update ty z); [discriminate|auto].
    + apply IH; [intros; apply A; right; assumption|discriminate].
  - apply IH; auto.
Qed.
Lemma last_val_skip k ty v a b x : (forall d, In d (filter (is_update ty) b) -> dllp_val k d = x) ->
  filter (is_update ty) b <> [] -> last_val k ty v (a ++ b) = x.
Proof. intros. rewrite last_val_app. apply last_val_in; auto. Qed.
Lemma last_val_filter k ty l : forall v, last_val k ty v l = last_val k ty v (filter (is_update ty) l).
Proof.
  induction l as [|d l IH]; intros v; [reflexivity|]. cbn [last_val fold_left filter].
  destruct (is_update ty d) eqn:U; [cbn [fold_left]; rewrite U|]; apply IH.
Qed.
Lemma app_split {A} (a b c d : list A) : a ++ b = c ++ d -> (length a <= length c)%nat -> exists m, c = a ++ m /\ b = m ++ d.
Proof.
  revert c. induction a as [|x a IH]; intros c E L; cbn in *; [exists c; auto|].
  destruct c as [|y c]; cbn in *; [lia|]. injection E as -> E. destruct (IH c E) as (m & -> & ->); [lia|]. eauto.
Qed.
Lemma filter_all {A} (f : A -> bool) l : (forall x, In x l -> f x = true) -> filter f l = l.
Proof. induction l as [|x l IH]; cbn; intros H; [reflexivity|]. rewrite H by auto. f_equal. auto. Qed.

Lemma full_credit ia ib st s k ty es st' l : reach ia ib st -> c_fi2 (p_ch (s_port st s)) = true ->
  in_use k ty s (s_log st) = 0 -> run es st = Ok st' -> s_log st' = s_log st ++ l ->
  sum_credits k ty (gated s l) = 0 ->
  (updates ty (dllps (on_wire st (negb s))) < updates ty (dllps_received s l))%nat ->
  tx_credits_available (fcof k ty (p_ch (s_port st' s))) =
  if advertised ia ib k ty (negb s) =? 0 then 2 ^ bits k - 1 else advertised ia ib k ty (negb s).
Proof.
  intros R F2 U H Hl G N. pose proof (reach_inv _ _ _ R) as I.
  assert (X0 : ext (adv_of ia ib) k ty s st st []).
  { constructor; auto; [rewrite app_nil_r; reflexivity|]. intros d []. }
  destruct (ext_run _ _ _ _ _ _ _ _ _ X0 H) as [m X]. cbn [app] in X.
  assert (m = l). { pose proof (e_log _ _ _ _ _ _ _ X) as E. rewrite Hl in E. apply app_inv_head in E. auto. } subst m.
  pose proof (fifo_reach _ _ _ (negb s) R) as Q1. pose proof (fifo_reach _ _ _ (negb s) (reach_run _ _ _ _ _ R H)) as Q2.
  unfold fifo in Q1, Q2. rewrite negb_involutive in Q1, Q2. rewrite Hl, sent_app, recvd_app, Q1 in Q2.
  rewrite <- !app_assoc in Q2. apply app_inv_head in Q2.
  apply (f_equal (filter (is_update ty))) in Q2. rewrite !filter_app in Q2.
  apply app_split in Q2; [|unfold updates in N; lia]. destruct Q2 as (n & Q2 & Q3).
  destruct X as [I' _ F2' Lim V].
  set (fr := free_at k ty s (s_log st)) in *.
  assert (Fr : fr = sum_credits k ty (gated s (s_log st))) by (unfold in_use in U; unfold fr, free_at; lia).
  assert (Val : forall d, In d n -> dllp_val k d = annd k (adv_of ia ib (negb s) k ty) fr).
  { intros d Hd. assert (Hd' : In d (filter (is_update ty) (dllps_sent (negb s) l))) by (rewrite Q3; apply in_or_app; auto).
    apply filter_In in Hd'. destruct Hd' as [Hd1 Hd2]. destruct (V d Hd1 Hd2) as (l1 & l2 & -> & V1 & V2).
    rewrite V1. f_equal. pose proof (free_at_mono k ty s (s_log st) l1) as M. fold fr in M.
    rewrite gated_app, sum_app in V2. rewrite gated_app, sum_app in G.
    pose proof (sum_nonneg k ty (gated s l1)). pose proof (sum_nonneg k ty (gated s l2)). lia. }
  rewrite last_val_filter, Q2 in Lim.
  assert (Fn : filter (is_update ty) n = n).
  { apply filter_all. intros d Hd. assert (Hd' : In d (filter (is_update ty) (dllps_received s l))) by (rewrite Q2; apply in_or_app; auto).
    apply filter_In in Hd'. tauto. }
  rewrite (last_val_skip _ _ _ _ _ (annd k (adv_of ia ib (negb s) k ty) fr)) in Lim.
  2:{ rewrite Fn. exact Val. }
  2:{ rewrite Fn. intros ->. unfold updates in N. apply (f_equal (@length _)) in Q2. rewrite app_length in Q2. cbn in Q2. lia. }
  destruct (I' s) as [D _]. pose proof (d_fc _ _ _ _ _ _ _ _ _ _ D k ty) as F. cbv zeta in F.
  destruct (d_flags _ _ _ _ _ _ _ _ _ _ D) as (_ & _ & G1 & G2). rewrite (G1 F2') in G2. symmetry in G2.
  apply andb_prop in G2. destruct G2 as [G2 G3]. apply andb_prop in G2. destruct G2 as [G2 G4].
  assert (Gt : get3 ty (c_fi1t (p_ch (s_port st' s))) = true) by (destruct ty; assumption). rewrite Gt in F.
  destruct F as (I1 & B & _ & _ & _ & _ & f0 & _ & _ & _ & E1 & _ & E3).
  unfold tx_credits_available, tx_is_infinite, f_mask. rewrite E1, B, E3, Lim, land_mask. unfold annd, cnt, adv_of in *.
  destruct (Z.eqb_spec (advertised ia ib k ty (negb s)) 0) as [Z|Z]; [reflexivity|].
  rewrite <- Zminus_mod, Hl, gated_app, sum_app, G.
  replace (_ + fr - _) with (advertised ia ib k ty (negb s)) by lia.
  apply Z.mod_small. pose proof (width_pos k). pose proof (Z.div_le_upper_bound (width k) 2 (width k)). lia.
Qed.

(** ** C17 *)
Lemma in_order ia ib st s : reach ia ib st -> exists x,
  transmitted s (s_log st) = x ++ tlps (on_wire st s) /\
  received (negb s) (s_log st) = map tlp_copy x /\
  received (negb s) (s_log st) = handled (negb s) (s_log st) ++ map snd (p_rxq (s_port st (negb s))).
Proof.
  intros R. destruct (reach_inv _ _ _ R s) as [D _]. destruct (d_deliv _ _ _ _ _ _ _ _ _ _ D) as (x & E1 & E2).
  exists x. split; [exact E1|]. split; [exact E2|]. symmetry. apply (d_hd _ _ _ _ _ _ _ _ _ _ D).
Qed.
Lemma seq_numbers ia ib st s n t : reach ia ib st -> nth_error (transmitted s (s_log st)) n = Some t ->
  seq t = Z.of_nat n mod 4096.
Proof.
  intros R H. destruct (reach_inv _ _ _ R s) as [D _]. pose proof (d_sq _ _ _ _ _ _ _ _ _ _ D) as Q.
  pose proof (map_nth_error seq _ _ H) as H1. rewrite Q in H1.
  assert (L : (n < length (transmitted s (s_log st)))%nat) by (apply nth_error_Some; congruence).
  rewrite (map_nth_error (fun i => Z.of_nat i mod 4096) n (List.seq 0 (length (transmitted s (s_log st)))) (d := n)) in H1.
  - injection H1 as H1. auto.
  - rewrite nth_error_nth' with (d := O) by (rewrite seq_length; exact L). rewrite seq_nth by exact L. reflexivity.
Qed.

Definition conserve (st : sys) (s : bool) : Prop :=
  Permutation (map (set_seq 0) (gated s (s_log st)))
    (map (set_seq 0) (transmitted s (s_log st) ++ p_txq (s_port st s) ++ p_pend (s_port st s))).
Lemma conserve_eq st st' s : conserve st s -> gated s (s_log st') = gated s (s_log st) ->
  transmitted s (s_log st') = transmitted s (s_log st) -> p_txq (s_port st' s) = p_txq (s_port st s) ->
  p_pend (s_port st' s) = p_pend (s_port st s) -> conserve st' s.
Proof. unfold conserve. intros C -> -> -> ->. exact C. Qed.
Lemma remove_nth_perm {A} (l : list A) x : forall i, nth_error l i = Some x -> Permutation l (x :: remove_nth i l).
Proof.
  induction l as [|y l IH]; intros i H; [destruct i; discriminate|]. destruct i as [|i]; cbn in *.
  - injection H as ->. reflexivity.
  - rewrite (IH _ H) at 1. apply perm_swap.
Qed.
Lemma handle_queues d p p' : handle_dllp d p = Ok p' -> p_txq p' = p_txq p /\ p_pend p' = p_pend p.
Proof.
  unfold handle_dllp. intros H. destruct (d_type d =? D_NOP); [injection H as <-; auto|].
  destruct (zmem (d_type d) d_seq_types).
  - destruct (Z.land _ _ >? 2048); [injection H as <-; auto|]. destruct (Z.land _ _ >? 2048); [injection H as <-; auto|].
    destruct (purge _ _ _) as [[x y]|]; [|discriminate]. cbn [bind] in H. destruct (d_type d =? D_NAK); [discriminate|].
    injection H as <-. auto.
  - destruct (zmem (d_type d) d_fc_types); [|discriminate]. destruct (d_vc d =? 0); [|injection H as <-; auto].
    destruct (handle_fc_dllp d (p_ch p)); [|discriminate]. cbn [bind] in H. injection H as <-. auto.
Qed.
Lemma recv_queues k p p' : ext_recv k p = Ok p' -> p_txq p' = p_txq p /\ p_pend p' = p_pend p.
Proof.
  destruct k as [t|d]; [|apply handle_queues]. cbn [ext_recv]. intros H.
  destruct (seq t =? p_next_rx p).
  - destruct (rx_process_tlp_fc (tlp_copy t) (p_ch p)); [|discriminate]. cbn [bind] in H. injection H as <-. auto.
  - destruct (_ <? 2048); [injection H as <-; auto|]. destruct (p_nak p); injection H as <-; auto.
Qed.
Ltac queues H := match type of H with Ok _ = Ok _ => injection H as <- end; eapply conserve_eq;
  [eassumption|..]; cbn [sys_port s_log s_port]; unfold upd;
  rewrite ?gated_app, ?transmitted_app; cbn [gated transmitted flat_map];
  rewrite ?app_nil_r; try reflexivity;
  match goal with |- context [Bool.eqb ?s ?a] => destruct (Bool.eqb s a) eqn:EQS; [apply eqb_prop in EQS; subst|]; reflexivity | _ => idtac end.
Lemma step_conserve adv e st st' s : sysinv adv st -> step e st = Ok st' -> conserve st s -> conserve st' s.
Proof.
  intros I H C. destruct e as [a t|a i|a w|a|a i|a|a n|a|a|a|n]; cbn [step] in H.
  - destruct (tx_gate t (s_port st a)) as [p|] eqn:E; [|injection H as <-; auto].
    unfold tx_gate in E. destruct (get_fc_type t); [|discriminate]. destruct (_ && _); [|discriminate].
    injection E as <-. injection H as <-. unfold conserve in *. cbn [sys_port s_log s_port].
    rewrite gated_app, transmitted_app. cbn [gated transmitted flat_map]. rewrite !app_nil_r.
    destruct (Bool.eqb a s) eqn:Es.
    + apply eqb_prop in Es. subst a. rewrite upd_same. cbn [p_txq p_pend set_p_pend set_p_ch].
      rewrite !map_app in *. cbn [map]. rewrite !app_assoc. apply Permutation_app_tail. rewrite <- !app_assoc. exact C.
    + unfold upd. replace (Bool.eqb s a) with false by (destruct a, s; auto). rewrite !app_nil_r. exact C.
  - destruct (p_txq (s_port st a)) eqn:Eq; [|injection H as <-; auto].
    destruct (nth_error (p_pend (s_port st a)) i) as [t|] eqn:En; [|injection H as <-; auto]. injection H as <-.
    unfold conserve in *. cbn [sys_port s_log s_port]. rewrite app_nil_r. unfold upd.
    destruct (Bool.eqb s a) eqn:Es; [|exact C]. apply eqb_prop in Es. subst a.
    cbn [p_txq p_pend set_p_pend set_p_txq]. rewrite Eq in C. cbn [app] in C. rewrite C. apply Permutation_map.
    apply Permutation_app_head. apply remove_nth_perm. exact En.
  - destruct (p_busy (s_port st a)) as [b|] eqn:Eb; [injection H as <-; auto|].
    destruct (tx_select (s_now st) (s_port st a)) as [p' o] eqn:Es.
    destruct (tx_select_cases _ _ _ _ Es) as (B & D & Sel).
    assert (G : forall t k, o = Some (PTlp t) -> conserve (sys_port a (set_p_busy k p') [LTx a t] st) s).
    { intros t k ->. inversion Sel as [| | |t0 q Ht Hr Htx Hr' E1]; subst t0. unfold conserve in *. cbn [sys_port s_log s_port].
      rewrite gated_app, transmitted_app. cbn [gated transmitted flat_map]. rewrite !app_nil_r. unfold upd.
      destruct (Bool.eqb a s) eqn:Ea.
      - apply eqb_prop in Ea. subst a. rewrite eqb_reflx. unfold tx_tlp in Htx. destruct Ht.
        destruct (p_txq q) as [|t1 r] eqn:Eq; [discriminate|]. injection Htx as <- <-.
        cbn [p_txq p_pend set_p_busy set_p_txq set_p_retry set_p_next_tx]. rewrite <- t_txq, <- t_pend in C.
        rewrite !map_app in *. rewrite C. cbn [map app]. rewrite <- app_assoc. reflexivity.
      - replace (Bool.eqb s a) with false by (destruct a, s; auto). rewrite app_nil_r. exact C. }
    destruct o as [[t|d]|].
    + injection H as <-. apply G. reflexivity.
    + assert (T : p_txq p' = p_txq (s_port st a) /\ p_pend p' = p_pend (s_port st a)).
      { inversion Sel; subst; match goal with X : teq _ _ |- _ => destruct X; auto end. }
      destruct T as [T1 T2]. injection H as <-. cbn [log_tx].
      eapply conserve_eq; [exact C|..]; cbn [sys_port s_log s_port]; unfold upd; rewrite ?gated_app, ?transmitted_app;
        cbn [gated transmitted flat_map]; rewrite ?app_nil_r; try reflexivity;
        destruct (Bool.eqb s a) eqn:E; try reflexivity; apply eqb_prop in E; subst; assumption.
    + assert (T : p_txq p' = p_txq (s_port st a) /\ p_pend p' = p_pend (s_port st a)).
      { inversion Sel; subst; match goal with X : teq _ _ |- _ => destruct X; auto end. }
      destruct T as [T1 T2]. injection H as <-.
      eapply conserve_eq; [exact C|..]; cbn [sys_port s_log s_port]; unfold upd; rewrite ?app_nil_r; try reflexivity;
        destruct (Bool.eqb s a) eqn:E; try reflexivity; apply eqb_prop in E; subst; assumption.
  - destruct (p_busy (s_port st a)) as [[t k]|]; [|queues H]. destruct (t =? s_now st); queues H.
  - destruct (nth_error (s_flight st a) i) as [[t k]|]; [|queues H]. destruct (t =? s_now st); [|queues H].
    destruct (ext_recv k (s_port st (negb a))) as [p'|] eqn:E; [|discriminate]. cbn [bind] in H. injection H as <-.
    apply recv_queues in E. destruct E as [E1 E2].
    assert (Q : gated s (log_rx (negb a) k (s_port st (negb a))) = [] /\ transmitted s (log_rx (negb a) k (s_port st (negb a))) = []).
    { unfold log_rx. destruct k as [t0|]; [destruct (seq t0 =? _)|]; auto. }
    destruct Q as [Q1 Q2].
    eapply conserve_eq; [exact C|..]; cbn [s_log s_port]; unfold upd; rewrite ?gated_app, ?transmitted_app, ?Q1, ?Q2, ?app_nil_r; try reflexivity;
      destruct (Bool.eqb s (negb a)) eqn:E; try reflexivity; apply eqb_prop in E; subst; assumption.
  - destruct (p_rxq (s_port st a)) as [|[m t] r]; queues H.
  - destruct (n <? c_tok (p_ch (s_port st a)))%nat; [|queues H]. destruct (rx_release_fc_token n (p_ch (s_port st a))); queues H.
  - destruct (p_ack_timer (s_port st a)); [|queues H]. cbn [p_nak set_p_ack_timer] in H. destruct (p_nak (s_port st a)); queues H.
  - destruct (p_fc_timer (s_port st a)); queues H.
  - queues H.
  - match type of H with (if ?b then _ else _) = _ => destruct b end; queues H.
Qed.

Lemma run_state (P : sys -> Prop) adv : (forall e st st', sysinv adv st -> step e st = Ok st' -> P st -> P st') ->
  forall es st st', sysinv adv st -> run es st = Ok st' -> P st -> P st'.
Proof.
  intros H. induction es as [|e es IH]; intros st st' I Hr P0; cbn [run] in Hr; [injection Hr as <-; exact P0|].
  destruct (step_inv _ e st I) as (s1 & E1 & I1). rewrite E1 in Hr. cbn [bind] in Hr. eauto.
Qed.
Lemma conserve_reach ia ib st s : reach ia ib st -> conserve st s.
Proof.
  intros (da & db & steps & s0 & es & H0 & Hr). pose proof (link_new_inv _ _ _ _ _ _ H0) as I0.
  eapply (run_state (fun st => conserve st s)); [|exact I0|exact Hr|].
  - intros. eapply step_conserve; eauto.
  - unfold link_new in H0. destruct (port_new ia da steps) as [p1|] eqn:E1; [|discriminate]. destruct (port_new ib db steps) as [p2|] eqn:E2; [|discriminate].
    cbn [bind] in H0. injection H0 as <-. unfold conserve. cbn [s_port s_log].
    unfold port_new in E1, E2. destruct (chan_new ia true); [|discriminate]. destruct (chan_new ib true); [|discriminate].
    injection E1 as <-. injection E2 as <-. destruct s; reflexivity.
Qed.

(** ** C18 *)
Lemma retry_suffix ia ib st s : reach ia ib st -> exists a, (a <= length (received (negb s) (s_log st)))%nat /\
  p_retry (s_port st s) = skipn a (transmitted s (s_log st)).
Proof.
  intros R. destruct (reach_inv _ _ _ R s) as [D _]. destruct (d_ack _ _ _ _ _ _ _ _ _ _ D) as (a & L & E & _ & C).
  apply chain_le in C. exists a. split; [unfold zlen in C; lia|exact E].
Qed.
Fixpoint ups (a : nat) (c : list nat) (b : nat) : Prop :=
  match c with [] => (a <= b)%nat | x :: r => (a <= x)%nat /\ ups x r b end.
Lemma ups_le c : forall a b, ups a c b -> (a <= b)%nat.
Proof. induction c as [|x c IH]; cbn; intros a b H; [exact H|]. destruct H as [H1 H2]. apply IH in H2. lia. Qed.
Lemma ups_snoc c : forall a b, ups a c b -> ups a (c ++ [b]) b.
Proof. induction c as [|x c IH]; cbn; intros a b H; [lia|]. destruct H as [H1 H2]. auto. Qed.
Lemma ups_S c : forall a b, ups a c b -> ups a c (S b).
Proof. induction c as [|x c IH]; cbn; intros a b H; [lia|]. destruct H as [H1 H2]. auto. Qed.
Record ackinv (s : bool) (st : sys) : Prop := mkAck {
  a_rx : fst (fst (ack_state s (s_log st))) = length (received (negb s) (s_log st));
  a_wire : acks (on_wire st (negb s)) = map (fun r => (Z.of_nat r - 1) mod 4096) (snd (fst (ack_state s (s_log st))));
  a_up : ups (acknowledged s (s_log st)) (snd (fst (ack_state s (s_log st)))) (length (received (negb s) (s_log st)));
  a_retry : p_retry (s_port st s) = skipn (acknowledged s (s_log st)) (transmitted s (s_log st));
  a_ackd : p_ackd (s_port st s) = (Z.of_nat (acknowledged s (s_log st)) - 1) mod 4096 }.
Lemma ack_state_snoc s l e : ack_state s (l ++ [e]) = ack_step s (ack_state s l) e.
Proof. unfold ack_state. rewrite fold_left_app. reflexivity. Qed.
Lemma handle_ack d p p' : handle_dllp d p = Ok p' -> d_type d <> D_ACK ->
  p_retry p' = p_retry p /\ p_ackd p' = p_ackd p.
Proof.
  intros H N. unfold handle_dllp in H. destruct (d_type d =? D_NOP); [injection H as <-; auto|].
  destruct (zmem (d_type d) d_seq_types) eqn:Z.
  - assert (T : d_type d = D_NAK).
    { unfold zmem, d_seq_types in Z. cbn [existsb] in Z. rewrite orb_false_r in Z. apply orb_prop in Z. rewrite !Z.eqb_eq in Z. intuition congruence. }
    destruct (Z.land _ _ >? 2048); [injection H as <-; auto|]. destruct (Z.land _ _ >? 2048); [injection H as <-; auto|].
    destruct (purge _ _ _) as [[x y]|]; [|discriminate]. cbn [bind] in H. rewrite T in H. discriminate.
  - destruct (zmem (d_type d) d_fc_types); [|discriminate]. destruct (d_vc d =? 0); [|injection H as <-; auto].
    destruct (handle_fc_dllp d (p_ch p)); [|discriminate]. cbn [bind] in H. injection H as <-. auto.
Qed.
Lemma step_ack adv e st st' s : sysinv adv st -> step e st = Ok st' -> (length (p_retry (s_port st s)) <= 2048)%nat ->
  ackinv s st -> ackinv s st'.
Proof.
  intros I H Win A. destruct (step_eff _ _ _ _ I H) as (l & Hl & W & P).
  pose proof (W (negb s)) as Wn. clear W.
  destruct (I s) as [D _]. pose proof (rx_le_tx _ _ _ _ _ _ _ _ _ _ D) as Lx.
  destruct A as [A1 A2 A3 A4 A5].
  assert (Same : forall e0, l = [e0] \/ l = [] -> (l = [e0] -> ack_step s (ack_state s (s_log st)) e0 = ack_state s (s_log st) /\
      received (negb s) [e0] = [] /\ transmitted s [e0] = []) ->
      acks (on_wire st' (negb s)) = acks (on_wire st (negb s)) -> p_retry (s_port st' s) = p_retry (s_port st s) ->
      p_ackd (s_port st' s) = p_ackd (s_port st s) -> ackinv s st').
  { intros e0 El Es E1 E2 E3.
    assert (Q : ack_state s (s_log st') = ack_state s (s_log st) /\ received (negb s) (s_log st') = received (negb s) (s_log st) /\
        transmitted s (s_log st') = transmitted s (s_log st)).
    { rewrite Hl. destruct El as [El|El].
      - destruct (Es El) as (F1 & F2 & F3). subst l.
        rewrite ack_state_snoc, received_app, transmitted_app, F1, F2, F3, !app_nil_r. auto.
      - rewrite El, app_nil_r. auto. }
    destruct Q as (Q1 & Q2 & Q3). constructor; unfold acknowledged in *; rewrite ?Q1, ?Q2, ?Q3, ?E1, ?E2, ?E3; auto. }
  destruct l as [|e0 [|? ?]].
  - cbn [wire_eff port_eff] in *. destruct (P s). apply (Same (LRelease true 0)); auto; [discriminate|rewrite Wn; auto].
  - destruct e0 as [b t|b t|b t|b t|b n|b d|b d]; cbn [port_eff wire_eff] in *.
    + destruct (P s). eapply Same; eauto; [|rewrite Wn; auto]. intros _. destruct (ack_state s (s_log st)) as [[? ?] ?]. auto.
    + destruct P as [P1 (q & P2 & P3)].
      assert (Wa : acks (on_wire st' (negb s)) = acks (on_wire st (negb s))).
      { destruct (Bool.eqb b (negb s)); rewrite Wn, ?acks_app; cbn; rewrite ?app_nil_r; reflexivity. }
      destruct (Bool.bool_dec b s) as [->|N].
      * assert (Q : ack_state s (s_log st') = ack_state s (s_log st)).
        { rewrite Hl, ack_state_snoc. destruct (ack_state s (s_log st)) as [[? ?] ?]. reflexivity. }
        assert (Q2 : received (negb s) (s_log st') = received (negb s) (s_log st)) by (rewrite Hl, received_app; cbn; apply app_nil_r).
        assert (Q3 : transmitted s (s_log st') = transmitted s (s_log st) ++ [t]) by (rewrite Hl, transmitted_app; cbn; rewrite eqb_reflx; reflexivity).
        constructor; unfold acknowledged in *; rewrite ?Q, ?Q2, ?Q3, ?Wa; auto.
        -- rewrite (x_retry _ _ P3). cbn [p_retry set_p_retry]. rewrite (x_retry _ _ P2), A4.
           rewrite skipn_snoc; [reflexivity|]. apply ups_le in A3. lia.
        -- rewrite (x_ackd _ _ P3). cbn. rewrite (x_ackd _ _ P2). exact A5.
      * rewrite (other_side _ _ N) in P1. destruct P1. eapply Same; eauto. intros _.
        destruct (ack_state s (s_log st)) as [[? ?] ?]. cbn. replace (Bool.eqb b s) with false by (destruct b, s; cbn; congruence). auto.
    + destruct (P s). destruct (Bool.bool_dec b s) as [->|N].
      * rewrite eqb_negb1 in Wn || idtac. eapply Same; eauto.
        -- intros _. destruct (ack_state s (s_log st)) as [[? ?] ?]. cbn. rewrite eqb_reflx, eqb_negb2. auto.
        -- destruct s; cbn in Wn |- *; destruct Wn as [t0 ->]; reflexivity.
      * replace (Bool.eqb b (negb s)) with true in Wn by (destruct b, s; cbn; congruence).
        assert (Q : ack_state s (s_log st') = let '(x, y, z) := ack_state s (s_log st) in (S x, y, z)).
        { rewrite Hl, ack_state_snoc. destruct (ack_state s (s_log st)) as [[? ?] ?]. cbn.
          replace (Bool.eqb b s) with false by (destruct b, s; cbn; congruence). reflexivity. }
        assert (Q2 : received (negb s) (s_log st') = received (negb s) (s_log st) ++ [t]).
        { rewrite Hl, received_app. cbn. replace (Bool.eqb b (negb s)) with true by (destruct b, s; cbn; congruence). reflexivity. }
        assert (Q3 : transmitted s (s_log st') = transmitted s (s_log st)) by (rewrite Hl, transmitted_app; apply app_nil_r).
        unfold acknowledged in *. destruct (ack_state s (s_log st)) as [[x y] z]. cbn [fst snd] in *.
        constructor; unfold acknowledged; rewrite ?Q, ?Q2, ?Q3; cbn [fst snd]; rewrite ?app_length; cbn [length]; rewrite ?Wn; auto; try congruence.
        -- lia.
        -- replace (length (received (negb s) (s_log st)) + 1)%nat with (S (length (received (negb s) (s_log st)))) by lia.
           apply ups_S. exact A3.
    + destruct (P s). eapply Same; eauto; [|rewrite Wn; auto]. intros _. destruct (ack_state s (s_log st)) as [[? ?] ?]. auto.
    + destruct (P s). eapply Same; eauto; [|rewrite Wn; auto]. intros _. destruct (ack_state s (s_log st)) as [[? ?] ?]. auto.
    + destruct P as [P Pd]. destruct (P s).
      destruct (Bool.bool_dec b s) as [->|N].
      * rewrite eqb_negb1 in Wn || rewrite eqb_negb2 in Wn. eapply Same; eauto; [|rewrite Wn; auto].
        intros _. destruct (ack_state s (s_log st)) as [[? ?] ?]. cbn. rewrite eqb_reflx. auto.
      * replace (Bool.eqb b (negb s)) with true in Wn by (destruct b, s; cbn; congruence).
        destruct (d_type d =? D_ACK) eqn:T.
        -- assert (Dv : d = create_ack (Z.land (p_next_rx (s_port st b) - 1) 0xfff)).
           { destruct Pd as [Pd|(code & ty & E & Pd)]; [exact Pd|]. rewrite Pd in T. cbn in T. apply Z.eqb_eq in T. subst code. discriminate E. }
           assert (b = negb s) by (destruct b, s; cbn; congruence). subst b.
           assert (Q : ack_state s (s_log st') = let '(x, y, z) := ack_state s (s_log st) in (x, y ++ [x], z)).
           { rewrite Hl, ack_state_snoc. destruct (ack_state s (s_log st)) as [[? ?] ?]. cbn. rewrite eqb_negb1 || rewrite eqb_negb2. rewrite T. reflexivity. }
           assert (Q2 : received (negb s) (s_log st') = received (negb s) (s_log st)) by (rewrite Hl, received_app; apply app_nil_r).
           assert (Q3 : transmitted s (s_log st') = transmitted s (s_log st)) by (rewrite Hl, transmitted_app; apply app_nil_r).
           unfold acknowledged in *. destruct (ack_state s (s_log st)) as [[x y] z]. cbn [fst snd] in *.
           constructor; unfold acknowledged; rewrite ?Q, ?Q2, ?Q3; cbn [fst snd]; rewrite ?Wn, ?acks_app; auto; try congruence.
           ++ rewrite A2, map_app. f_equal. cbn [acks flat_map]. rewrite T. cbn [map app]. rewrite Dv. cbn [d_seq create_ack].
              rewrite land_fff, (d_nrx _ _ _ _ _ _ _ _ _ _ D), A1. unfold zlen. rewrite Zminus_mod_idemp_l. reflexivity.
           ++ rewrite A1. apply ups_snoc. exact A3.
        -- eapply Same; eauto.
           ++ intros _. destruct (ack_state s (s_log st)) as [[? ?] ?]. cbn. rewrite T, andb_false_r. auto.
           ++ rewrite Wn, acks_app. cbn. rewrite T. rewrite !app_nil_r. reflexivity.
    + destruct P as [P1 P2]. destruct (Bool.bool_dec b s) as [->|N].
      * rewrite eqb_negb2 in Wn. destruct (d_type d =? D_ACK) eqn:T.
        -- apply Z.eqb_eq in T.
           rewrite Wn in A2. cbn [acks flat_map] in A2. rewrite T in A2. change (D_ACK =? D_ACK) with true in A2. cbn [app] in A2.
           assert (Q2 : received (negb s) (s_log st') = received (negb s) (s_log st)) by (rewrite Hl, received_app; apply app_nil_r).
           assert (Q3 : transmitted s (s_log st') = transmitted s (s_log st)) by (rewrite Hl, transmitted_app; apply app_nil_r).
           assert (Q : ack_state s (s_log st') = match snd (fst (ack_state s (s_log st))) with [] => ack_state s (s_log st)
                | r :: q => (fst (fst (ack_state s (s_log st))), q, r) end).
           { rewrite Hl, ack_state_snoc. destruct (ack_state s (s_log st)) as [[? [|? ?]] ?]; cbn; rewrite eqb_reflx, T; reflexivity. }
           unfold acknowledged in *. destruct (ack_state s (s_log st)) as [[x y] z]. cbn [fst snd] in *.
           destruct y as [|r y]; [discriminate A2|]. cbn [map] in A2.
           pose proof (f_equal (hd 0) A2) as A2a. pose proof (f_equal (@tl Z) A2) as A2b. cbn [hd tl] in A2a, A2b. clear A2.
           destruct A3 as [A3 A3']. pose proof (ups_le _ _ _ A3') as A3''.
           assert (Lw : (length (transmitted s (s_log st)) - z <= 2048)%nat) by (rewrite A4, skipn_length in Win; exact Win).
           assert (Lr : Z.land (Z.land (p_next_tx (s_port st s) - 1) 0xfff - d_seq d) 0xfff = zlen (transmitted s (s_log st)) - Z.of_nat r).
           { rewrite !land_fff, (d_ntx _ _ _ _ _ _ _ _ _ _ D), A2a. unfold zlen. lia. }
           assert (Lq : Z.land (d_seq d - p_ackd (s_port st s)) 0xfff = Z.of_nat r - Z.of_nat z).
           { rewrite land_fff, A5, A2a. lia. }
           unfold handle_dllp in P2. rewrite T in P2. change (D_ACK =? D_NOP) with false in P2. change (zmem D_ACK d_seq_types) with true in P2. cbv iota in P2.
           rewrite Lr, Lq in P2. unfold zlen in P2.
           destruct (_ >? 2048) eqn:G1 in P2; [lia|]. destruct (_ >? 2048) eqn:G2 in P2; [lia|].
           destruct (purge_ok (transmitted s (s_log st)) (d_seq d) r) with (a := z) (ackd := p_ackd (s_port st s)) (n := (r - z)%nat) as (a' & Pu & La & Wa);
             [exact A2a|lia|reflexivity|lia|exact A5|]. rewrite A4, Pu in P2. cbn [bind] in P2. change (D_ACK =? D_NAK) with false in P2. cbv iota in P2.
           apply Ok_inj in P2. rewrite Wa in * by lia.
           constructor; unfold acknowledged; rewrite ?Q, ?Q2, ?Q3; cbn [fst snd]; auto; rewrite <- P2; reflexivity.
        -- apply Z.eqb_neq in T. destruct (handle_ack _ _ _ P2 T) as [R1 R2]. eapply Same; eauto.
           ++ intros _. destruct (ack_state s (s_log st)) as [[? ?] ?]. cbn. replace (d_type d =? D_ACK) with false by lia. rewrite andb_false_r. auto.
           ++ rewrite Wn. cbn. replace (d_type d =? D_ACK) with false by lia. reflexivity.
      * rewrite (other_side _ _ N) in P1. destruct P1. replace (Bool.eqb b (negb s)) with true in Wn by (destruct b, s; cbn; congruence).
        eapply Same; eauto; [|rewrite Wn; auto]. intros _. destruct (ack_state s (s_log st)) as [[? ?] ?]. cbn.
        replace (Bool.eqb b s) with false by (destruct b, s; cbn; congruence). auto.
  - destruct e0; contradiction.
Qed.
Lemma retry_exact ia ib da db steps s0 s es : link_new ia ib da db steps = Ok s0 ->
  (forall n st, run (firstn n es) s0 = Ok st -> (length (p_retry (s_port st s)) <= 2048)%nat) ->
  forall st, run es s0 = Ok st -> p_retry (s_port st s) = skipn (acknowledged s (s_log st)) (transmitted s (s_log st)).
Proof.
  intros H0 Win st Hr. pose proof (link_new_inv _ _ _ _ _ _ H0) as I0.
  assert (A0 : ackinv s s0).
  { unfold link_new in H0. destruct (port_new ia da steps) as [p1|] eqn:E1; [|discriminate]. destruct (port_new ib db steps) as [p2|] eqn:E2; [|discriminate].
    cbn [bind] in H0. injection H0 as <-. unfold port_new in E1, E2. destruct (chan_new ia true); [|discriminate]. destruct (chan_new ib true); [|discriminate].
    injection E1 as <-. injection E2 as <-. destruct s; constructor; cbn; auto. }
  apply a_retry. clear H0. revert s0 I0 A0 Win Hr.
  induction es as [|e es IH]; intros s0 I0 A0 Win Hr; cbn [run] in Hr; [injection Hr as <-; exact A0|].
  destruct (step_inv _ e s0 I0) as (s1 & E1 & I1). rewrite E1 in Hr. cbn [bind] in Hr. apply (IH s1); auto.
  - apply (step_ack _ _ _ _ _ I0 E1); auto. apply (Win O). reflexivity.
  - intros n st' Hn. apply (Win (S n)). cbn [firstn run]. rewrite E1. exact Hn.
Qed.
