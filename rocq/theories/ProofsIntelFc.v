(** Transmit flow control outputs of the Intel device models (C68). *)
From Verif Require Import Base BaseProofs ModelTlp SpecTlp ModelDllp ModelPort SpecPort ModelUsCfg SpecUsCfg ModelIntelFc SpecIntelFc ProofsPort ProofsPortInv ProofsPortSys ProofsPortObs ProofsPortThms ProofsUsCfg.

(** ** Credit limits only grow *)
Definition keep (p q : port) : Prop := c_fi2 (p_ch q) = c_fi2 (p_ch p) /\ forall k ty, tx_limit (fcof k ty (p_ch q)) = tx_limit (fcof k ty (p_ch p)).
Lemma keep_refl p : keep p p. Proof. split; reflexivity. Qed.
Lemma keep_ch p q : p_ch q = p_ch p -> keep p q. Proof. intros E. split; [|intros]; rewrite E; reflexivity. Qed.
Lemma keep_teq p q : teq p q -> keep p q.
Proof. intros []. split; [assumption|]. intros k ty. specialize (t_fc k ty). unfold txp in t_fc. congruence. Qed.
Lemma keep_port st a p l s : keep (s_port st a) p -> keep (s_port st s) (s_port (sys_port a p l st) s).
Proof. intros K. unfold sys_port. cbn [s_port]. unfold upd. destruct a, s; cbn [Bool.eqb]; try exact K; apply keep_refl. Qed.
Lemma lims_step adv e st st' s : sysinv adv st -> step e st = Ok st' -> c_fi2 (p_ch (s_port st s)) = true ->
  c_fi2 (p_ch (s_port st' s)) = true /\ forall k ty, tx_limit (fcof k ty (p_ch (s_port st' s))) = tx_limit (fcof k ty (p_ch (s_port st s))) \/
    exists d w, on_wire st (negb s) = PDllp d :: w /\ is_fc ty d = true /\ tx_limit (fcof k ty (p_ch (s_port st' s))) = dllp_val k d.
Proof.
  intros I E F. assert (Kp : keep (s_port st s) (s_port st' s) -> c_fi2 (p_ch (s_port st' s)) = true /\ forall k ty, tx_limit (fcof k ty (p_ch (s_port st' s))) = tx_limit (fcof k ty (p_ch (s_port st s))) \/
    exists d w, on_wire st (negb s) = PDllp d :: w /\ is_fc ty d = true /\ tx_limit (fcof k ty (p_ch (s_port st' s))) = dllp_val k d).
  { intros [K1 K2]. split; [congruence|]. intros k ty. left. apply K2. }
  destruct e as [a t|a i|a w|a|a i|a|a n|a|a|a|n]; cbn [step] in E.
  - destruct (tx_gate t (s_port st a)) as [p|] eqn:G; injection E as <-; apply Kp; [|apply keep_refl]. apply keep_port. unfold tx_gate in G. destruct (get_fc_type t); [|discriminate]. destruct (_ && _); [|discriminate].
    injection G as <-. split; [reflexivity|]. intros k ty. cbn [p_ch set_p_pend set_p_ch]. unfold tx_consume_fc. rewrite fcof_on. destruct (fc_eqb ty _); [|reflexivity]. destruct k; unfold f_tx_consume; destruct tx_is_infinite; reflexivity.
  - destruct (p_txq (s_port st a)); [|injection E as <-; apply Kp, keep_refl]. destruct (nth_error _ i); injection E as <-; apply Kp; [|apply keep_refl]. apply keep_port, keep_ch. reflexivity.
  - destruct (p_busy (s_port st a)); [injection E as <-; apply Kp, keep_refl|]. destruct (tx_select (s_now st) (s_port st a)) as [p' o] eqn:Es. destruct (tx_select_cases _ _ _ _ Es) as (_ & _ & Sel).
    assert (K : keep (s_port st a) p').
    { destruct Sel as [Ht _|Ht _|code ty Ht _ _ _|t q Ht _ Htx _]; try (apply keep_teq; exact Ht). apply keep_teq in Ht. destruct Ht as [H1 H2]. unfold tx_tlp in Htx. destruct (p_txq q); [discriminate|]. injection Htx as <- _. split; [exact H1|exact H2]. }
    destruct o; injection E as <-; apply Kp, keep_port; exact K.
  - destruct (p_busy (s_port st a)) as [[t k]|]; [|injection E as <-; apply Kp, keep_refl]. destruct (t =? s_now st); injection E as <-; apply Kp; [|apply keep_refl].
    cbn [s_port]. unfold upd. destruct a, s; cbn [Bool.eqb]; apply keep_ch; reflexivity.
  - destruct (nth_error (s_flight st a) i) as [[t k]|] eqn:En; [|injection E as <-; apply Kp, keep_refl]. destruct (Z.eqb_spec t (s_now st)) as [Et|]; [|injection E as <-; apply Kp, keep_refl].
    destruct (ext_recv k (s_port st (negb a))) as [p'|] eqn:X; [|discriminate E]. cbn [bind] in E. injection E as <-.
    destruct (Bool.bool_dec s a) as [->|N].
    { apply Kp. cbn [s_port]. unfold upd. destruct a; apply keep_refl. }
    assert (Es : s = negb a) by (clear - N; destruct s, a; try reflexivity; exfalso; apply N; reflexivity). subst s. rewrite negb_involutive in *.
    destruct (I a) as [D1 T1]. destruct (I (negb a)) as [D2 _]. unfold dinv in D1, D2. rewrite negb_involutive in D2. destruct (tinv_fifo _ _ _ _ _ _ T1 En Et) as (-> & Ef).
    assert (W : exists w, on_wire st a = k :: w) by (unfold on_wire; rewrite Ef; eexists; reflexivity). destruct W as [w W]. rewrite W in D1, D2.
    assert (Up : s_port (mkSys (upd (negb a) p' (s_port st)) (upd a (remove_nth 0 (s_flight st a)) (s_flight st)) (s_now st) (s_log st ++ log_rx (negb a) k (s_port st (negb a)))) (negb a) = p').
    { cbn [s_port]. unfold upd. rewrite eqb_reflx. reflexivity. }
    rewrite Up in *. clear Up. destruct k as [tl_|d].
    + destruct (dir_recv_tlp _ _ _ _ _ _ _ _ _ _ _ D1) as (_ & R' & Hrc & Ht & _). rewrite X in Hrc. injection Hrc as <-. apply Kp, keep_teq. exact Ht.
    + assert (Pk : pkt_ok (PDllp d)) by (apply (Forall_inv (d_out _ _ _ _ _ _ _ _ _ _ D1))). destruct (d_flags _ _ _ _ _ _ _ _ _ _ D2) as (Fa & _ & F1 & _). specialize (F1 F). cbn [ext_recv] in X. unfold handle_dllp in X.
      destruct (d_type d =? D_NOP); [injection X as <-; apply Kp, keep_refl|]. destruct (zmem (d_type d) d_seq_types).
      { destruct (_ >? 2048); [injection X as <-; apply Kp, keep_refl|]. destruct (_ >? 2048); [injection X as <-; apply Kp, keep_refl|]. destruct (purge _ _ _) as [[x y]|]; [|discriminate X]. cbn [bind] in X.
        destruct (d_type d =? D_NAK); [discriminate X|]. injection X as <-. apply Kp, keep_ch. reflexivity. }
      destruct (zmem (d_type d) d_fc_types); [|discriminate X]. destruct (d_vc d =? 0); [|injection X as <-; apply Kp, keep_refl].
      unfold handle_fc_dllp in X. rewrite Fa, F1, F in X. cbn [negb] in X. destruct (zmem (d_type d) d_update_types); [|injection X as <-; apply Kp, keep_ch; reflexivity].
      destruct (dllp_fc_type (d_type d)) as [ty|] eqn:Ty; [|discriminate X]. cbn [bind] in X. destruct (py_assert _); [|discriminate X]. cbn [bind] in X. destruct (py_assert _); [|discriminate X]. cbn [bind] in X. injection X as <-.
      clear Kp. split; [exact F|]. intros k ty'. cbn [p_ch set_p_ch]. rewrite fcof_on. destruct (fc_eqb ty' ty) eqn:Eq; [|left; reflexivity]. right. exists d, w. split; [exact W|]. apply fc_eqb_eq in Eq. subst ty'.
      split; [unfold is_fc; rewrite Ty; apply fc_eqb_refl|]. destruct k; reflexivity.
  - destruct (p_rxq (s_port st a)) as [|[m t] r]; injection E as <-; apply Kp; [apply keep_refl|]. apply keep_port, keep_ch. reflexivity.
  - destruct (n <? c_tok (p_ch (s_port st a)))%nat; [|injection E as <-; apply Kp, keep_refl]. destruct (rx_release_fc_token n (p_ch (s_port st a))) as [c|] eqn:G; injection E as <-; apply Kp, keep_port; [|apply keep_refl].
    unfold rx_release_fc_token in G. destruct (rel_find n _) as [[ty dc]|]; [|discriminate G]. injection G as <-. split; [reflexivity|]. intros k ty'. cbn [p_ch set_p_fc_timer set_p_ch]. unfold rx_release_fc. rewrite fcof_on.
    destruct (fc_eqb ty' ty); [|reflexivity]. destruct k; unfold f_rx_release; destruct rx_is_infinite; reflexivity.
  - destruct (p_ack_timer (s_port st a)); injection E as <-; apply Kp; [|apply keep_refl]. apply keep_port. destruct (p_nak _); apply keep_ch; reflexivity.
  - destruct (p_fc_timer (s_port st a)); injection E as <-; apply Kp; [|apply keep_refl]. apply keep_port, keep_ch; reflexivity.
  - injection E as <-. apply Kp, keep_port, keep_ch. reflexivity.
  - match type of E with context [if ?b then _ else _] => destruct b end; injection E as <-; apply Kp, keep_refl.
Qed.
(** ** What is shown stays there *)
Lemma gated_step e st st' s : step e st = Ok st' -> exists l, gated s (s_log st') = gated s (s_log st) ++ l.
Proof.
  assert (S : forall a p l, exists g, gated s (s_log (sys_port a p l st)) = gated s (s_log st) ++ g) by (intros a p l; exists (gated s l); unfold sys_port; cbn [s_log]; apply gated_app).
  assert (N : exists g, gated s (s_log st) = gated s (s_log st) ++ g) by (exists []; symmetry; apply app_nil_r).
  intros E. destruct e as [a t|a i|a w|a|a i|a|a n|a|a|a|n]; cbn [step] in E.
  - destruct (tx_gate t (s_port st a)); injection E as <-; auto.
  - destruct (p_txq (s_port st a)); [|injection E as <-; auto]. destruct (nth_error _ i); injection E as <-; auto.
  - destruct (p_busy (s_port st a)); [injection E as <-; auto|]. destruct (tx_select (s_now st) (s_port st a)) as [p' []]; injection E as <-; auto.
  - destruct (p_busy (s_port st a)) as [[t k]|]; [|injection E as <-; auto]. destruct (t =? s_now st); injection E as <-; auto.
  - destruct (nth_error (s_flight st a) i) as [[t k]|]; [|injection E as <-; auto]. destruct (t =? s_now st); [|injection E as <-; auto].
    destruct (ext_recv k (s_port st (negb a))); [|discriminate E]. cbn [bind] in E. injection E as <-. cbn [s_log]. rewrite gated_app. eauto.
  - destruct (p_rxq (s_port st a)) as [|[m t] r]; injection E as <-; auto.
  - destruct (n <? c_tok (p_ch (s_port st a)))%nat; [|injection E as <-; auto]. destruct (rx_release_fc_token n (p_ch (s_port st a))); injection E as <-; auto.
  - destruct (p_ack_timer (s_port st a)); injection E as <-; auto.
  - destruct (p_fc_timer (s_port st a)); injection E as <-; auto.
  - injection E as <-; auto.
  - match type of E with context [if ?b then _ else _] => destruct b end; injection E as <-; auto.
Qed.
Definition fi1_all (c : chan) : Prop := forall ty, get3 ty (c_fi1t c) = true.
Lemma fi1_ok adv st s : sysinv adv st -> c_fi2 (p_ch (s_port st s)) = true -> fi1_all (p_ch (s_port st s)).
Proof.
  intros I H2 ty. destruct (I s) as [D _]. destruct (d_flags _ _ _ _ _ _ _ _ _ _ D) as (_ & _ & G1 & G2). rewrite (G1 H2) in G2. symmetry in G2.
  apply andb_prop in G2. destruct G2 as [G2 G3]. apply andb_prop in G2. destruct G2 as [G2 G4]. destruct ty; assumption.
Qed.
Lemma avail_is k i fT f0 used : f_bits fT = bits k -> tx_init fT = i -> tx_limit fT = annd k i f0 -> tx_cons fT = cnt k i used -> i <> 0 -> 0 <= i + f0 - used < width k -> tx_credits_available fT = i + f0 - used.
Proof.
  intros B E L C N U. unfold tx_credits_available, tx_is_infinite. rewrite E. destruct (Z.eqb_spec i 0); [lia|]. unfold f_mask. rewrite B, land_mask, L, C. unfold annd, cnt. destruct (Z.eqb_spec i 0); [lia|].
  rewrite <- Zminus_mod. apply Z.mod_small. exact U.
Qed.
Lemma fc_known adv st s k ty : sysinv adv st -> c_fi2 (p_ch (s_port st s)) = true -> let i := adv (negb s) k ty in let f := fcof k ty (p_ch (s_port st s)) in
  0 <= i < width k / 2 /\ f_bits f = bits k /\ tx_init f = i /\ (i <> 0 -> tx_cons f = sent k ty s st mod width k) /\
  exists f0, chain (annd k i) f0 (fc_vals k ty (on_wire st (negb s))) (freed k ty (released (negb s) (s_log st)) 0 (received (negb s) (s_log st))) /\
    tx_limit f = annd k i f0 /\ (i <> 0 -> f0 <= sent k ty s st <= i + f0 /\ tx_credits_available f = i + f0 - sent k ty s st).
Proof.
  intros I F. pose proof (fi1_ok _ _ _ I F ty) as G. pose proof (freed_used _ _ s k ty I) as Fu. destruct (I s) as [D _]. pose proof (d_fc _ _ _ _ _ _ _ _ _ _ D k ty) as X. cbv zeta in *. rewrite G in X.
  destruct X as (P1 & P2 & _ & _ & _ & _ & f0 & Q1 & Q2 & Q3 & Q4 & Q5 & Q6). split; [exact P1|]. split; [exact P2|]. split; [exact Q4|]. fold (sent k ty s st) in *. split.
  { intros N. rewrite Q6. unfold cnt. destruct (Z.eqb_spec (adv (negb s) k ty) 0); [contradiction|]. reflexivity. }
  exists f0. split; [exact Q2|]. split; [exact Q5|]. intros N. apply chain_le in Q2. destruct Q3 as [Q3|Q3]; [contradiction|]. split; [lia|]. eapply avail_is; eauto. pose proof (width_pos k). assert (width k / 2 <= width k) by (apply Z.div_le_upper_bound; lia). lia.
Qed.
Lemma mod_ge W a b i : 0 < W -> a mod W = b mod W -> 0 <= i < W -> b - i <= a -> b <= a.
Proof. intros HW E Hi H. assert (D : (a - b) mod W = 0) by (rewrite Zminus_mod, E, Z.sub_diag; reflexivity). apply Z.mod_divide in D; [|lia]. destruct D as [q D]. destruct (Z.le_gt_cases 0 q); [nia|]. assert (q * W <= - W) by nia. lia. Qed.
Lemma limit_step adv e st st' s k ty : sysinv adv st -> step e st = Ok st' -> c_fi2 (p_ch (s_port st s)) = true ->
  sysinv adv st' /\ c_fi2 (p_ch (s_port st' s)) = true /\ sent k ty s st <= sent k ty s st' /\
  tx_credits_available (fcof k ty (p_ch (s_port st s))) - (sent k ty s st' - sent k ty s st) <= tx_credits_available (fcof k ty (p_ch (s_port st' s))).
Proof.
  intros I E F. destruct (lims_step _ _ _ _ _ I E F) as [F' L]. specialize (L k ty). destruct (step_inv _ e _ I) as (st1 & E1 & I'). rewrite E in E1. injection E1 as <-. split; [exact I'|]. split; [exact F'|].
  destruct (gated_step _ _ _ s E) as [g Eg]. assert (Se : sent k ty s st <= sent k ty s st') by (unfold sent; rewrite Eg, sum_app; pose proof (sum_nonneg k ty g); lia). split; [exact Se|].
  pose proof (freed_used _ _ s k ty I) as Fu. fold (sent k ty s st) in Fu.
  destruct (fc_known _ _ _ k ty I F) as (P1 & P2 & P3 & P4 & f0 & C & P5 & P6). destruct (fc_known _ _ _ k ty I' F') as (_ & R2 & R3 & R4 & f1 & C' & R5 & R6). cbv zeta in *.
  destruct (Z.eq_dec (adv (negb s) k ty) 0) as [Z|N].
  { unfold tx_credits_available, tx_is_infinite, f_mask. rewrite P3, R3, P2, R2, Z. cbn. lia. }
  specialize (P6 N). specialize (R6 N). destruct P6 as [P6 ->]. destruct R6 as [R6 ->]. enough (f0 <= f1) by lia.
  pose proof (width_pos k) as Wp. assert (width k / 2 <= width k) by (apply Z.div_le_upper_bound; lia).
  assert (X : exists f, f0 <= f <= sent k ty s st /\ tx_limit (fcof k ty (p_ch (s_port st' s))) = annd k (adv (negb s) k ty) f).
  { destruct L as [L|(d & w & Ew & Ei & L)].
    - exists f0. split; [lia|]. congruence.
    - rewrite Ew in C. cbn [fc_vals flat_map] in C. rewrite Ei in C. cbn [app] in C. destruct C as (f & C1 & C2 & C3). apply chain_le in C3. exists f. split; [lia|]. congruence. }
  destruct X as (f & B & X). rewrite R5 in X. unfold annd in X. destruct (Z.eqb_spec (adv (negb s) k ty) 0); [contradiction|].
  pose proof (mod_ge (width k) (adv (negb s) k ty + f1) (adv (negb s) k ty + f) (adv (negb s) k ty) Wp X ltac:(lia) ltac:(lia)). lia.
Qed.
Lemma limit_run adv es s k ty : forall st st', sysinv adv st -> run es st = Ok st' -> c_fi2 (p_ch (s_port st s)) = true ->
  sysinv adv st' /\ c_fi2 (p_ch (s_port st' s)) = true /\ sent k ty s st <= sent k ty s st' /\
  tx_credits_available (fcof k ty (p_ch (s_port st s))) - (sent k ty s st' - sent k ty s st) <= tx_credits_available (fcof k ty (p_ch (s_port st' s))).
Proof.
  induction es as [|e es IH]; intros st st' I E F; cbn [run] in E.
  - injection E as <-. split; [exact I|]. split; [exact F|]. lia.
  - destruct (step e st) as [st1|] eqn:E1; [|discriminate E]. cbn [bind] in E. destruct (limit_step _ _ _ _ _ k ty I E1 F) as (I1 & F1 & S1 & A1). destruct (IH _ _ I1 E F1) as (I2 & F2 & S2 & A2). split; [exact I2|]. split; [exact F2|]. lia.
Qed.

(** ** Stratix 10 *)
Lemma s10_is lt c k ty x : s10_shown k ty (s10_fc lt c) = Some x -> x = tx_credits_available (fcof k ty c) mod 2 ^ fc_bits k.
Proof. rewrite <- land_mod_bits. unfold s10_shown, s10_fc, fcof. destruct k, ty, lt; cbn; intros E; try discriminate E; injection E as <-; reflexivity. Qed.
Lemma avail_nonneg ia ib st s k ty : reach ia ib st -> 0 <= tx_credits_available (fcof k ty (p_ch (s_port st s))).
Proof. intros R. apply tx_avail_nonneg. rewrite (fbits _ _ _ _ _ _ R). destruct k; cbn; lia. Qed.
Lemma reach_run ia ib st es st' : reach ia ib st -> run es st = Ok st' -> reach ia ib st'.
Proof.
  intros (da & db & steps & s0 & es0 & H0 & Hr) E. exists da, db, steps, s0, (es0 ++ es). split; [exact H0|]. clear H0. revert s0 Hr. induction es0 as [|e es0 IH]; intros s0 Hr; cbn [run app] in *.
  - injection Hr as <-. exact E.
  - destruct (step e s0); [|discriminate Hr]. cbn [bind] in *. auto.
Qed.
(** What is shown, less what has been sent since *)
Lemma s10_left ia ib st s lt k ty x es st' : reach ia ib st -> c_fi2 (p_ch (s_port st s)) = true -> s10_shown k ty (s10_fc lt (p_ch (s_port st s))) = Some x -> run es st = Ok st' ->
  0 <= x /\ x - (sent k ty s st' - sent k ty s st) <= tx_credits_available (fcof k ty (p_ch (s_port st' s))) /\ c_fi2 (p_ch (s_port st' s)) = true.
Proof.
  intros R F E Ru. apply s10_is in E. subst x. pose proof (avail_nonneg _ _ _ s k ty R) as N. pose proof (shown_le k _ N). destruct (limit_run _ es s k ty _ _ (reach_inv _ _ _ R) Ru F) as (_ & F' & _ & L). split; [lia|]. split; [lia|exact F'].
Qed.
Lemma s10_safe ia ib st s lt k ty x es st' : reach ia ib st -> c_fi2 (p_ch (s_port st s)) = true -> s10_shown k ty (s10_fc lt (p_ch (s_port st s))) = Some x -> run es st = Ok st' ->
  advertised ia ib k ty (negb s) = 0 \/ x - (sent k ty s st' - sent k ty s st) <= advertised ia ib k ty (negb s) - in_use k ty s (s_log st').
Proof.
  intros R F E Ru. destruct (s10_left _ _ _ _ _ _ _ _ _ _ R F E Ru) as (_ & L & F'). destruct (gate_sound _ _ _ s k ty (reach_run _ _ _ _ _ R Ru) F') as [G|G]; [left; exact G|right; lia].
Qed.
Lemma go_if ia ib st s t ty : reach ia ib st -> c_fi2 (p_ch (s_port st s)) = true -> get_fc_type t = Ok ty -> (forall k, credits k ty t <= tx_credits_available (fcof k ty (p_ch (s_port st s)))) ->
  exists st', step (EGate s t) st = Ok st' /\ gated s (s_log st') = gated s (s_log st) ++ [t].
Proof.
  intros R F T H. pose proof (H false) as H0. pose proof (H true) as H1. destruct (reach_inv _ _ _ R s) as [V _]. destruct (d_flags _ _ _ _ _ _ _ _ _ _ V) as (_ & G1 & _).
  rewrite (credits_of _ _ _ _ T) in H0. rewrite (credits_of _ _ _ _ T) in H1. assert (fc_eqb ty ty = true) as Y by (destruct ty; reflexivity). rewrite Y in H0, H1.
  assert (X : tx_has_credit ty (get_data_credits t) (p_ch (s_port st s)) = true). { unfold tx_has_credit. unfold fcof in *. cbv iota in *. apply andb_true_intro. lia. }
  cbn [step]. unfold tx_gate. rewrite T, G1, F, X. cbn [andb]. eexists. split; [reflexivity|]. unfold sys_port. cbn [s_log]. unfold gated. rewrite flat_map_app. cbn. rewrite eqb_reflx. reflexivity.
Qed.
Lemma blocked_if ia ib st s t ty k : reach ia ib st -> get_fc_type t = Ok ty -> tx_credits_available (fcof k ty (p_ch (s_port st s))) < credits k ty t -> step (EGate s t) st = Ok st.
Proof.
  intros R T H. rewrite (credits_of _ _ _ _ T) in H. assert (fc_eqb ty ty = true) as Y by (destruct ty; reflexivity). rewrite Y in H. cbn [step]. unfold tx_gate. rewrite T.
  assert (X : tx_has_credit ty (get_data_credits t) (p_ch (s_port st s)) = false). { unfold tx_has_credit. unfold fcof in *. destruct k; cbv iota in *; [apply andb_false_intro2|apply andb_false_intro1]; lia. }
  rewrite X, andb_false_r. reflexivity.
Qed.
Lemma s10_go ia ib st0 s lt t ty es st : reach ia ib st0 -> c_fi2 (p_ch (s_port st0 s)) = true -> run es st0 = Ok st -> get_fc_type t = Ok ty ->
  (forall k, exists x, s10_shown k ty (s10_fc lt (p_ch (s_port st0 s))) = Some x /\ credits k ty t <= x - (sent k ty s st - sent k ty s st0)) ->
  exists st', step (EGate s t) st = Ok st' /\ gated s (s_log st') = gated s (s_log st) ++ [t].
Proof.
  intros R F Ru T H. destruct (H false) as (x & E & _). destruct (s10_left _ _ _ _ _ _ _ _ _ _ R F E Ru) as (_ & _ & F'). apply (go_if ia ib) with (ty := ty); auto; [eapply reach_run; eauto|].
  intros k. destruct (H k) as (y & Ey & Ly). destruct (s10_left _ _ _ _ _ _ _ _ _ _ R F Ey Ru) as (_ & L & _). lia.
Qed.

(** ** P-Tile *)
Lemma ptile_is n c k ty : snd (ptile_fc n c) = tdm k ty -> fst (ptile_fc n c) = tx_limit (fcof k ty c) mod 2 ^ wide k.
Proof.
  assert (L : forall x, Z.land x 0xfff = x mod 2 ^ 12) by (intros x; change 0xfff with (Z.ones 12); apply Z.land_ones; lia).
  assert (L' : forall x, Z.land x 0xffff = x mod 2 ^ 16) by (intros x; change 0xffff with (Z.ones 16); apply Z.land_ones; lia).
  unfold ptile_fc, tdm, fcof. destruct (n mod 6)%nat as [|[|[|[|[|]]]]]; cbn [fst snd]; rewrite ?L, ?L'; destruct k, ty; intros E; try discriminate E; reflexivity.
Qed.
Lemma ptile_pools n c k ty : exists j, (j < 6)%nat /\ snd (ptile_fc (n + j) c) = tdm k ty.
Proof.
  set (r := match ty with FC_P => 0 | FC_NP => 1 | FC_CPL => 2 end + if k then 3 else 0 : Z). pose proof (Nat.mod_upper_bound n 6 ltac:(lia)) as B.
  set (j := Z.to_nat ((r - Z.of_nat (n mod 6)) mod 6)). assert (Hj : (j < 6)%nat) by (unfold j; lia). exists j. split; [exact Hj|].
  assert (E : ((n + j) mod 6)%nat = Z.to_nat r). { rewrite <- Nat.add_mod_idemp_l by lia. unfold j, r. destruct (n mod 6)%nat as [|[|[|[|[|[|]]]]]]; try lia; destruct k, ty; reflexivity. }
  unfold ptile_fc. rewrite E. unfold r. destruct k, ty; reflexivity.
Qed.
Lemma left_is ia ib st s n k ty : reach ia ib st -> c_fi2 (p_ch (s_port st s)) = true -> advertised ia ib k ty (negb s) <> 0 -> snd (ptile_fc n (p_ch (s_port st s))) = tdm k ty ->
  left_of (fst (ptile_fc n (p_ch (s_port st s)))) k ty s st = tx_credits_available (fcof k ty (p_ch (s_port st s))).
Proof.
  intros R F N E. rewrite (ptile_is _ _ _ _ E). destruct (fc_known _ _ _ k ty (reach_inv _ _ _ R) F) as (P1 & P2 & P3 & P4 & f0 & _ & P5 & P6). cbv zeta in *. change (adv_of ia ib (negb s) k ty) with (advertised ia ib k ty (negb s)) in *.
  destruct (P6 N) as [P7 ->]. rewrite P5. unfold left_of, annd. destruct (Z.eqb_spec (advertised ia ib k ty (negb s)) 0); [contradiction|]. change (2 ^ wide k) with (width k).
  pose proof (width_pos k). assert (width k / 2 <= width k) by (apply Z.div_le_upper_bound; lia). rewrite Z.mod_mod by lia. rewrite Zminus_mod_idemp_l. apply Z.mod_small. lia.
Qed.
Lemma left_sub v k ty s st st' : sent k ty s st <= sent k ty s st' -> sent k ty s st' - sent k ty s st <= left_of v k ty s st -> left_of v k ty s st' = left_of v k ty s st - (sent k ty s st' - sent k ty s st).
Proof.
  intros L H. unfold left_of in *. assert (W : 0 < 2 ^ wide k) by (destruct k; reflexivity). pose proof (Z.mod_pos_bound (v - sent k ty s st) _ W) as B.
  replace (v - sent k ty s st') with ((v - sent k ty s st) - (sent k ty s st' - sent k ty s st)) by lia. rewrite <- Zminus_mod_idemp_l. apply Z.mod_small. lia.
Qed.
Lemma ptile_left ia ib st s n k ty es st' : reach ia ib st -> c_fi2 (p_ch (s_port st s)) = true -> advertised ia ib k ty (negb s) <> 0 -> snd (ptile_fc n (p_ch (s_port st s))) = tdm k ty ->
  let v := fst (ptile_fc n (p_ch (s_port st s))) in run es st = Ok st' -> sent k ty s st' - sent k ty s st <= left_of v k ty s st ->
  left_of v k ty s st' = left_of v k ty s st - (sent k ty s st' - sent k ty s st) /\ left_of v k ty s st' <= tx_credits_available (fcof k ty (p_ch (s_port st' s))) /\ c_fi2 (p_ch (s_port st' s)) = true.
Proof.
  intros R F N E v Ru H. destruct (limit_run _ es s k ty _ _ (reach_inv _ _ _ R) Ru F) as (_ & F' & Se & L). pose proof (left_sub v k ty s st st' Se H) as S. split; [exact S|]. split; [|exact F']. rewrite S. unfold v. rewrite (left_is _ _ _ _ _ _ _ R F N E). exact L.
Qed.
Lemma ptile_safe ia ib st s n k ty es st' : reach ia ib st -> c_fi2 (p_ch (s_port st s)) = true -> advertised ia ib k ty (negb s) <> 0 -> snd (ptile_fc n (p_ch (s_port st s))) = tdm k ty ->
  let v := fst (ptile_fc n (p_ch (s_port st s))) in run es st = Ok st' -> sent k ty s st' - sent k ty s st <= left_of v k ty s st ->
  left_of v k ty s st' = left_of v k ty s st - (sent k ty s st' - sent k ty s st) /\ 0 <= left_of v k ty s st' <= advertised ia ib k ty (negb s) - in_use k ty s (s_log st').
Proof.
  intros R F N E v Ru H. destruct (ptile_left _ _ _ _ _ _ _ _ _ R F N E Ru H) as (S & L & F'). split; [exact S|]. destruct (gate_sound _ _ _ s k ty (reach_run _ _ _ _ _ R Ru) F') as [G|G]; [contradiction|]. fold v in L.
  pose proof (Z.mod_pos_bound (v - sent k ty s st') (2 ^ wide k) ltac:(destruct k; reflexivity)). unfold left_of in *. lia.
Qed.
Lemma unlimited ia ib st s k ty : reach ia ib st -> c_fi2 (p_ch (s_port st s)) = true -> advertised ia ib k ty (negb s) = 0 ->
  tx_limit (fcof k ty (p_ch (s_port st s))) = 0 /\ tx_credits_available (fcof k ty (p_ch (s_port st s))) = 2 ^ wide k - 1.
Proof.
  intros R F N. destruct (fc_known _ _ _ k ty (reach_inv _ _ _ R) F) as (P1 & P2 & P3 & P4 & f0 & _ & P5 & _). cbv zeta in *. change (adv_of ia ib (negb s) k ty) with (advertised ia ib k ty (negb s)) in *. rewrite N in *.
  split; [exact P5|]. unfold tx_credits_available, tx_is_infinite, f_mask. rewrite P3, P2. reflexivity.
Qed.
Lemma fi2_run ia ib es s st st' : reach ia ib st -> run es st = Ok st' -> c_fi2 (p_ch (s_port st s)) = true -> c_fi2 (p_ch (s_port st' s)) = true.
Proof. intros R Ru F. exact (proj1 (proj2 (limit_run _ es s true FC_P _ _ (reach_inv _ _ _ R) Ru F))). Qed.
(** The pools are seen at times of their own. *)
Lemma ptile_go ia ib st s t ty : get_fc_type t = Ok ty ->
  (forall k, exists st0 es n, reach ia ib st0 /\ c_fi2 (p_ch (s_port st0 s)) = true /\ run es st0 = Ok st /\ snd (ptile_fc n (p_ch (s_port st0 s))) = tdm k ty /\
    let v := fst (ptile_fc n (p_ch (s_port st0 s))) in sent k ty s st - sent k ty s st0 <= left_of v k ty s st0 /\ credits k ty t <= left_of v k ty s st) ->
  exists st', step (EGate s t) st = Ok st' /\ gated s (s_log st') = gated s (s_log st) ++ [t].
Proof.
  intros T H. destruct (H true) as (st0 & es & n & R & F & Ru & _). pose proof (fi2_run _ _ _ _ _ _ R Ru F) as F'. pose proof (reach_run _ _ _ _ _ R Ru) as R'. clear st0 es n R F Ru. apply (go_if ia ib) with (ty := ty); auto.
  intros k. destruct (H k) as (st0 & es & n & R & F & Ru & E & H1 & H2). cbv zeta in *. destruct (Z.eq_dec (advertised ia ib k ty (negb s)) 0) as [Z|N].
  - rewrite (proj2 (unlimited _ _ _ _ _ _ R' F' Z)). pose proof (Z.mod_pos_bound (fst (ptile_fc n (p_ch (s_port st0 s))) - sent k ty s st) (2 ^ wide k) ltac:(destruct k; reflexivity)). unfold left_of in *. lia.
  - destruct (ptile_left _ _ _ _ _ _ _ _ _ R F N E Ru H1) as (_ & L & _). lia.
Qed.
Lemma ptile_blocked ia ib st s n k ty t : reach ia ib st -> c_fi2 (p_ch (s_port st s)) = true -> advertised ia ib k ty (negb s) <> 0 -> snd (ptile_fc n (p_ch (s_port st s))) = tdm k ty -> get_fc_type t = Ok ty ->
  left_of (fst (ptile_fc n (p_ch (s_port st s)))) k ty s st < credits k ty t -> step (EGate s t) st = Ok st.
Proof. intros R F N E T H. rewrite (left_is _ _ _ _ _ _ _ R F N E) in H. exact (blocked_if _ _ _ _ _ _ _ R T H). Qed.
