From Verif Require Import Base BaseProofs ModelTlp SpecTlp ModelDllp ModelPort SpecPort ProofsPort ProofsPortInv ProofsPortSys ProofsPortObs ProofsPortThms.

(** A run with 2049 TLPs before the first acknowledgement. *)
Definition inf3 : per3 (Z * Z) := mk3 (0, 0) (0, 0) (0, 0).
Definition wr : tlp := set_tlen 1 (set_data [1; 2; 3; 4] (set_fmt_type MEM_WRITE tlp0)).
Definition xfer (s : bool) : list event := [ETx s 1; ETick 1; ETxDone s; ETick 1; EArrive s 0].
Fixpoint times {A} (n : nat) (l : list A) : list A := match n with O => [] | S n => l ++ times n l end.
Definition w_init : list event := times 3 (xfer true) ++ times 3 (xfer false) ++ times 3 (xfer true) ++ times 3 (xfer false) ++ xfer true.
Definition w_chan (rel : list (nat * (fc_type * Z))) (tok : nat) : chan :=
  let h := mkFcs 12 0 0 0 0 0 0 in let d := mkFcs 16 0 0 0 0 0 0 in
  mkChan (mk3 h h h) (mk3 d d d) true true (mk3 true true true) true true (mk3 0 0 0) rel tok.
Definition w_tx (n : Z) (r : list tlp) : port :=
  mkPort n 0xfff r 0 false false false false false [] [] [] (w_chan [] 0) true FC_NP None 1 1000.
Definition w_rx (n : Z) (timer : bool) (rel : list (nat * (fc_type * Z))) (tok : nat) (q : list (nat * tlp)) : port :=
  mkPort 0 0xfff [] n false timer false false false [] [] q (w_chan rel tok) true FC_NP None 1 1000.
Record win (k : nat) (st : sys) : Prop := mkWin {
  w_t : exists r, s_port st true = w_tx (Z.of_nat k mod 4096) r /\ length r = k;
  w_r : exists timer rel tok q, s_port st false = w_rx (Z.of_nat k mod 4096) timer rel tok q /\ (k <> O -> timer = true);
  w_f : s_flight st true = [] /\ s_flight st false = [];
  w_a : ack_state true (s_log st) = (k, [], O);
  w_x : length (transmitted true (s_log st)) = k }.

Ltac stp := match goal with |- context [step ?e ?st] => let H := fresh in
  eassert (step e st = Ok _) as H; [|rewrite H; clear H; cbn [bind]] end.
Lemma win_step k st : win k st -> exists st', run ([EGate true wr; EPut true 0] ++ xfer true) st = Ok st' /\ win (S k) st'.
Proof.
  intros [(r & Ht & Lr) (tm & rel & tok & q & Hr & Tm) (F1 & F2) A X]. destruct st as [f g now lg]. cbn [s_port s_flight s_log] in *.
  cbn [app xfer run].
  stp. { cbn [step s_port]. rewrite Ht. reflexivity. }
  stp. { cbn [step s_port sys_port upd Bool.eqb]. reflexivity. }
  stp. { cbn [step s_port sys_port upd Bool.eqb s_now]. reflexivity. }
  stp. { cbn [step s_port s_flight sys_port upd Bool.eqb s_now]. rewrite F1, F2, Hr. cbn [p_busy set_p_busy existsb w_rx].
    replace (now + Z.max 1 1 <? now + 1) with false by lia. reflexivity. }
  stp. { cbn [step s_port s_flight sys_port upd Bool.eqb s_now p_busy set_p_busy].
    replace (now + Z.max 1 1 =? now + 1) with true by lia. reflexivity. }
  stp. { cbn [step s_port s_flight sys_port upd Bool.eqb s_now p_busy set_p_busy]. rewrite F1, F2, Hr. cbn [existsb app fst w_rx p_busy].
    try match goal with |- context [p_delay ?p] => change (p_delay p) with 1 end.
    match goal with |- context [?a <? now + 1 + 1] => replace (a <? now + 1 + 1) with false by lia end. reflexivity. }
  stp. { cbn [step s_port s_flight sys_port upd Bool.eqb s_now p_busy set_p_busy nth_error]. rewrite ?F1. cbn [app nth_error].
    try match goal with |- context [p_delay ?p] => change (p_delay p) with 1 end.
    match goal with |- context [?a =? now + 1 + 1] => replace (a =? now + 1 + 1) with true by lia end. cbn [negb upd Bool.eqb]. rewrite ?Hr.
    cbn [ext_recv seq p_next_rx p_next_tx set_seq w_rx set_p_pend set_p_ch w_tx]. rewrite Z.eqb_refl. reflexivity. }
  assert (N : Z.land (Z.of_nat k mod 4096 + 1) 4095 = Z.of_nat (S k) mod 4096) by (rewrite land_fff; lia).
  eexists. split; [reflexivity|]. split; cbn [s_port s_flight s_log sys_port upd Bool.eqb negb].
  - exists (r ++ [set_seq (Z.of_nat k mod 4096) wr]). split; [|rewrite app_length; cbn; lia].
    rewrite <- N. reflexivity.
  - exists true. rewrite <- N. do 3 eexists. split; [reflexivity|auto].
  - auto.
  - unfold log_rx. cbn [seq p_next_rx p_next_tx set_seq w_rx w_tx set_p_pend set_p_ch set_p_txq].
    rewrite Z.eqb_refl. rewrite ?app_nil_r. cbn [log_tx]. rewrite !ack_state_snoc, A. reflexivity.
  - unfold log_rx. cbn [seq p_next_rx p_next_tx set_seq w_rx w_tx set_p_pend set_p_ch set_p_txq].
    rewrite Z.eqb_refl. rewrite ?app_nil_r. cbn [log_tx]. rewrite !transmitted_app, !app_length, X. cbn. lia.
Qed.
Lemma win_0 : exists s0 st, link_new inf3 inf3 1 1 1000 = Ok s0 /\ run w_init s0 = Ok st /\ win 0 st.
Proof.
  eexists. eexists. split; [reflexivity|]. split; [vm_compute; reflexivity|].
  constructor.
  - exists []. split; reflexivity.
  - exists false, [], O, []. split; [reflexivity|]. intros H. contradiction.
  - split; reflexivity.
  - reflexivity.
  - reflexivity.
Qed.
Lemma win_k k : exists st, reach inf3 inf3 st /\ win k st.
Proof.
  induction k as [|k (st & R & W)].
  - destruct win_0 as (s0 & st & H0 & Hr & W). exists st. split; [|exact W]. exists 1, 1, 1000, s0, w_init. auto.
  - destruct (win_step k st W) as (st' & H & W'). exists st'. split; [|exact W']. eapply reach_run; eauto.
Qed.
(** An acknowledgement of more than 2048 TLPs is ignored. *)
Lemma ack_lost k st : win k st -> Z.of_nat k = 2049 -> exists st', run (EAckTimer false :: xfer false) st = Ok st' /\
  length (p_retry (s_port st' true)) = k /\ length (transmitted true (s_log st')) = k /\ acknowledged true (s_log st') = k.
Proof.
  intros [(r & Ht & Lr) (tm & rel & tok & q & Hr & Tm) (F1 & F2) A X] K. destruct st as [f g now lg]. cbn [s_port s_flight s_log] in *.
  rewrite Tm in Hr by lia. rewrite K in *. change (2049 mod 4096) with 2049 in *.
  cbn [app xfer run].
  stp. { cbn [step s_port]. rewrite Hr. reflexivity. }
  stp. { cbn [step s_port sys_port upd Bool.eqb]. reflexivity. }
  stp. { cbn [step s_port s_flight sys_port upd Bool.eqb s_now]. rewrite F1, F2, Ht. cbn [p_busy set_p_busy existsb w_tx].
    replace (now + Z.max 1 1 <? now + 1) with false by lia. reflexivity. }
  stp. { cbn [step s_port s_flight sys_port upd Bool.eqb s_now p_busy set_p_busy].
    replace (now + Z.max 1 1 =? now + 1) with true by lia. reflexivity. }
  stp. { cbn [step s_port s_flight sys_port upd Bool.eqb s_now p_busy set_p_busy]. rewrite ?F1, ?F2, ?Ht. cbn [existsb app fst w_tx p_busy].
    try match goal with |- context [p_delay ?p] => change (p_delay p) with 1 end.
    match goal with |- context [?a <? now + 1 + 1] => replace (a <? now + 1 + 1) with false by lia end. reflexivity. }
  stp. { cbn [step s_port s_flight sys_port upd Bool.eqb s_now p_busy set_p_busy nth_error]. rewrite ?F2. cbn [app nth_error].
    try match goal with |- context [p_delay ?p] => change (p_delay p) with 1 end.
    match goal with |- context [?a =? now + 1 + 1] => replace (a =? now + 1 + 1) with true by lia end. cbn [negb upd Bool.eqb]. rewrite ?Ht.
    reflexivity. }
  eexists. split; [reflexivity|]. cbn [s_port s_log sys_port upd Bool.eqb negb].
  split; [exact Lr|]. rewrite ?app_nil_r. unfold acknowledged. rewrite !transmitted_app, !app_length, X.
  split; [cbn; lia|]. cbn [log_tx log_rx]. rewrite !ack_state_snoc, A. reflexivity.
Qed.
Lemma retry_refuted : exists ia ib st, reach ia ib st /\
  acknowledged true (s_log st) = length (transmitted true (s_log st)) /\ p_retry (s_port st true) <> [].
Proof.
  destruct (win_k (Z.to_nat 2049)) as (st & R & W). destruct (ack_lost _ _ W) as (st' & H & L1 & L2 & L3); [lia|].
  exists inf3, inf3, st'. split; [eapply reach_run; eauto|]. split; [congruence|].
  intros E. rewrite E in L1. cbn [length] in L1. lia.
Qed.
