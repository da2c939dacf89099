(** C15-C18: flow control and data link layer of a link between two ports. *)
From Coq Require Import Permutation.
From Verif Require Import Base BaseProofs ModelUtils ModelTlp SpecTlp ModelDllp ModelPort SpecPort
  ProofsPort ProofsPortInv ProofsPortSys ProofsPortObs ProofsPortThms ProofsPortWin ProofsPortLive.

(** An example: small buffers, the flow control initialisation, one write that crosses the link, is
    handled and released, and the updates that follow. *)
Definition ex_adv : per3 (Z * Z) := mk3 (2, 8) (1, 1) (0, 0).
Definition ex_write : tlp :=
  set_th true (set_tlen 5 (set_data (map Z.of_nat (List.seq 0 20)) (set_fmt_type MEM_WRITE tlp0))).
Definition ex_init : list event := times 3 (xfer true) ++ times 3 (xfer false) ++ times 3 (xfer true) ++ times 3 (xfer false).
Definition ex_send : list event := [EGate true ex_write; EPut true 0] ++ xfer true ++ xfer true.
Definition ex_free : list event :=
  [EHandle false; ERelease false 0; ERelease false 0; EAckTimer false] ++ xfer false ++ [EFcTimer false] ++ times 3 (xfer false).
Definition ex_run (es : list event) : res sys := s <- link_new ex_adv ex_adv 1 1 1000 ;; run es s.
Definition ex_log (es : list event) : list entry := match ex_run es with Ok st => s_log st | Err _ => [] end.
Lemma ex_reach es st : ex_run es = Ok st -> reach ex_adv ex_adv st.
Proof.
  unfold ex_run. destruct (link_new ex_adv ex_adv 1 1 1000) as [s0|] eqn:E; [|discriminate]. cbn [bind].
  intros H. exists 1, 1, 1000, s0, es. auto.
Qed.

(** ** C15 *)
(** The credits used by side [s] ([in_use]: those of all TLPs that passed its gate minus those of the
    received TLPs that the peer has released) never exceed what the peer advertised, for headers
    ([k = false]) and data ([k = true]), in each class; an advertisement of 0 means no limit. *)
Theorem C15_no_overrun : forall ia ib st s k ty, reach ia ib st ->
  advertised ia ib k ty (negb s) = 0 \/ in_use k ty s (s_log st) <= advertised ia ib k ty (negb s).
Proof. exact no_overrun. Qed.
(** The transmitter never believes to have more than what is left. *)
Theorem C15_conservative : forall ia ib st s k ty, reach ia ib st -> c_fi2 (p_ch (s_port st s)) = true ->
  advertised ia ib k ty (negb s) = 0 \/
  tx_credits_available (fcof k ty (p_ch (s_port st s))) <= advertised ia ib k ty (negb s) - in_use k ty s (s_log st).
Proof. exact gate_sound. Qed.
(** A sender that passes the gate had the credits for its TLP. *)
Theorem C15_gate : forall ia ib st st' s t k ty, reach ia ib st -> step (EGate s t) st = Ok st' ->
  gated s (s_log st') = gated s (s_log st) ++ [t] ->
  advertised ia ib k ty (negb s) = 0 \/
  credits k ty t <= advertised ia ib k ty (negb s) - in_use k ty s (s_log st).
Proof. exact gate_room. Qed.
(** What is in the buffers of the receiver also fits. *)
Theorem C15_received : forall ia ib st s k ty, reach ia ib st ->
  advertised ia ib k ty s = 0 \/
  sum_credits k ty (received s (s_log st)) - freed k ty (released s (s_log st)) 0 (received s (s_log st))
    <= advertised ia ib k ty s.
Proof. exact received_fits. Qed.
(** After the initialisation and one write of five DWORDs two data credits and one header credit
    are in use; a second and third write do not both fit. *)
Example C15_ex :
  (in_use false FC_P true (ex_log (ex_init ++ ex_send)), in_use true FC_P true (ex_log (ex_init ++ ex_send)),
   length (gated true (ex_log (ex_init ++ ex_send ++ [EGate true ex_write; EGate true ex_write])))) = (1, 2, 2%nat).
Proof. vm_compute. reflexivity. Qed.

(** ** C16 *)
(** The receiver has exactly the advertised credits minus those of TLPs that are not released, however
    often a TLP was released ([freed] counts each TLP once). *)
Theorem C16_counters : forall ia ib st s k ty, reach ia ib st ->
  rx_credits_available (fcof k ty (p_ch (s_port st s))) =
  if advertised ia ib k ty s =? 0 then 2 ^ bits k - 1
  else advertised ia ib k ty s -
       (sum_credits k ty (received s (s_log st)) - freed k ty (released s (s_log st)) 0 (received s (s_log st))).
Proof. exact rx_counters. Qed.
(** A second release changes nothing. *)
Theorem C16_once : forall ia ib st s n st', reach ia ib st -> released s (s_log st) n = true ->
  step (ERelease s n) st = Ok st' ->
  (forall a, s_port st' a = s_port st a) /\ (forall a, s_flight st' a = s_flight st a) /\ s_now st' = s_now st.
Proof. intros ia ib st s n st' R. exact (release_again _ st s n st' (reach_inv _ _ _ R)). Qed.
(** When all TLPs of a class were released and then an update arrives (one more than were on the way),
    the transmitter has again all the credit. *)
Theorem C16_restored : forall ia ib st s k ty es st' l, reach ia ib st -> c_fi2 (p_ch (s_port st s)) = true ->
  in_use k ty s (s_log st) = 0 -> run es st = Ok st' -> s_log st' = s_log st ++ l ->
  sum_credits k ty (gated s l) = 0 ->
  (updates ty (dllps (on_wire st (negb s))) < updates ty (dllps_received s l))%nat ->
  tx_credits_available (fcof k ty (p_ch (s_port st' s))) =
  if advertised ia ib k ty (negb s) =? 0 then 2 ^ bits k - 1 else advertised ia ib k ty (negb s).
Proof. exact full_credit. Qed.
(** After a release the update timer makes the port send the new limit of that class, unless another
    class or an acknowledgement is due before. *)
Theorem C16_update : forall ia ib st s n t ty w, reach ia ib st ->
  nth_error (received s (s_log st)) n = Some t -> fc_class (fmt t) (type_ t) = Some ty ->
  released s (s_log st) n = false -> c_fi2 (p_ch (s_port st s)) = true ->
  p_busy (s_port st s) = None -> p_send_ack (s_port st s) = false ->
  (forall x, x <> ty -> s_now st < get3 x (c_nxt (p_ch (s_port st s)))) ->
  exists st' d, run [ERelease s n; EFcTimer s; ETx s w] st = Ok st' /\
    s_log st' = s_log st ++ [LRelease s n; LDllpTx s d] /\ is_update ty d = true /\
    forall k : bool, (if k then d_data_fc d else d_hdr_fc d) =
      if advertised ia ib k ty s =? 0 then 0
      else (advertised ia ib k ty s + freed k ty (released s (s_log st')) 0 (received s (s_log st'))) mod 2 ^ bits k.
Proof. exact release_updates. Qed.
Definition ex_quiet : list event := ex_init ++ ex_send ++ [EHandle false; EAckTimer false] ++ xfer false ++ [EIdle false] ++ times 3 (xfer false).
Example C16_update_ex : match ex_run ex_quiet with
  | Ok st =>
    length (received false (s_log st)) = 1%nat /\ released false (s_log st) 0 = false /\
    c_fi2 (p_ch (s_port st false)) = true /\ p_busy (s_port st false) = None /\ p_send_ack (s_port st false) = false /\
    (forall x, x <> FC_P -> s_now st < get3 x (c_nxt (p_ch (s_port st false))))
  | Err _ => False
  end.
Proof. vm_compute. repeat split. intros []; congruence. Qed.
(** Two new ports can always complete the initialisation of flow control. *)
Theorem C16_initialises : forall ia ib da db steps s0, link_new ia ib da db steps = Ok s0 ->
  exists es st, run es s0 = Ok st /\ forall s, c_initialized (p_ch (s_port st s)) = true.
Proof. exact initialises. Qed.
Example C16_ex : match ex_run (ex_init ++ ex_send), ex_run (ex_init ++ ex_send ++ firstn 4 ex_free), ex_run (ex_init ++ ex_send ++ ex_free) with
  | Ok a, Ok b, Ok c =>
    map (fun st => tx_credits_available (fcof true FC_P (p_ch (s_port st true)))) [a; b; c] = [6; 6; 8] /\
    c_fi2 (p_ch (s_port b true)) = true /\ in_use true FC_P true (s_log b) = 0 /\
    updates FC_P (dllps (on_wire b false)) = O /\
    updates FC_P (dllps_received true (skipn (length (s_log b)) (s_log c))) = 1%nat /\
    released false (s_log b) 0 = true
  | _, _, _ => False
  end.
Proof. vm_compute. repeat split. Qed.

(** ** C17 *)
(** No exception is raised in any execution. *)
Theorem C17_no_error : forall ia ib st es, reach ia ib st -> exists st', run es st = Ok st'.
Proof. intros ia ib st es. exact (run_ok ia ib es st). Qed.
(** What the peer has accepted are the first of the transmitted TLPs, in order and each once, and the
    others are on the wire; the receive handler gets them in the same order. *)
Theorem C17_in_order : forall ia ib st s, reach ia ib st -> exists x,
  transmitted s (s_log st) = x ++ tlps (on_wire st s) /\
  received (negb s) (s_log st) = map (set_th false) x /\
  received (negb s) (s_log st) = handled (negb s) (s_log st) ++ map snd (p_rxq (s_port st (negb s))).
Proof. exact in_order. Qed.
(** Each TLP that passed the gate is transmitted once, apart from those still queued. *)
Theorem C17_conserved : forall ia ib st s, reach ia ib st ->
  Permutation (map (set_seq 0) (gated s (s_log st)))
    (map (set_seq 0) (transmitted s (s_log st) ++ p_txq (s_port st s) ++ p_pend (s_port st s))).
Proof. exact conserve_reach. Qed.
Theorem C17_sequence : forall ia ib st s n t, reach ia ib st -> nth_error (transmitted s (s_log st)) n = Some t ->
  seq t = Z.of_nat n mod 4096.
Proof. exact seq_numbers. Qed.
Example C17_ex : map (set_seq 0) (transmitted true (ex_log (ex_init ++ ex_send ++ ex_free))) = [ex_write] /\
  handled false (ex_log (ex_init ++ ex_send ++ ex_free)) = [set_th false ex_write].
Proof. vm_compute. repeat split. Qed.
(** The delivered TLP is not always the transmitted one: the copy made by the receiver loses TH. *)
Theorem C17_content_refuted : exists ia ib st t u, reach ia ib st /\
  transmitted true (s_log st) = [t] /\ received false (s_log st) = [u] /\ th t = true /\ th u = false.
Proof.
  destruct (ex_run (ex_init ++ ex_send)) as [st|] eqn:E; [|vm_compute in E; discriminate].
  exists ex_adv, ex_adv, st. assert (L : s_log st = ex_log (ex_init ++ ex_send)) by (unfold ex_log; rewrite E; reflexivity).
  rewrite L. exists ex_write, (set_th false ex_write). split; [eapply ex_reach; exact E|].
  vm_compute. repeat split.
Qed.

(** ** C18 *)
(** The retry buffer always holds the transmitted TLPs from some position on, and all that the peer
    has not accepted. *)
Theorem C18_suffix : forall ia ib st s, reach ia ib st -> exists a,
  (a <= length (received (negb s) (s_log st)))%nat /\ p_retry (s_port st s) = skipn a (transmitted s (s_log st)).
Proof. exact retry_suffix. Qed.
(** Exactly those not yet acknowledged, in all executions in which it never holds more than 2048. *)
Theorem C18_exact : forall ia ib da db steps s0 s es, link_new ia ib da db steps = Ok s0 ->
  (forall n st, run (firstn n es) s0 = Ok st -> (length (p_retry (s_port st s)) <= 2048)%nat) ->
  forall st, run es s0 = Ok st -> p_retry (s_port st s) = skipn (acknowledged s (s_log st)) (transmitted s (s_log st)).
Proof. exact retry_exact. Qed.
(** A TLP that is accepted is acknowledged when the timer expires. *)
Theorem C18_acknowledges : forall ia ib st s st1 t w, reach ia ib st -> (exists i, step (EArrive (negb s) i) st = Ok st1) ->
  received s (s_log st1) = received s (s_log st) ++ [t] -> p_busy (s_port st s) = None ->
  exists st2 d, run [EAckTimer s; ETx s w] st1 = Ok st2 /\ s_log st2 = s_log st1 ++ [LDllpTx s d] /\
    d_type d = D_ACK /\ d_seq d = seq t.
Proof. exact ack_sent. Qed.
Example C18_acknowledges_ex : match ex_run (ex_init ++ firstn 6 ex_send) with
  | Ok st => match step (EArrive true 0) st with
             | Ok st1 => length (received false (s_log st1)) = S (length (received false (s_log st))) /\
                         p_busy (s_port st false) = None
             | Err _ => False
             end
  | Err _ => False
  end.
Proof. vm_compute. repeat split. Qed.
Example C18_ex : match ex_run (ex_init ++ ex_send), ex_run (ex_init ++ ex_send ++ firstn 9 ex_free) with
  | Ok a, Ok b => (length (p_retry (s_port a true)), length (p_retry (s_port b true)), acknowledged true (s_log b)) = (1, 0, 1)%nat
  | _, _ => False
  end.
Proof. vm_compute. reflexivity. Qed.
(** Without the bound this is false: nothing limits the number of TLPs in flight, and an ACK that
    covers more than 2048 TLPs is taken for an old one and ignored. *)
Theorem C18_unbounded_refuted : exists ia ib st, reach ia ib st /\
  acknowledged true (s_log st) = length (transmitted true (s_log st)) /\ p_retry (s_port st true) <> [].
Proof. exact retry_refuted. Qed.

Print Assumptions C15_no_overrun.
Print Assumptions C15_conservative.
Print Assumptions C15_gate.
Print Assumptions C15_received.
Print Assumptions C16_counters.
Print Assumptions C16_once.
Print Assumptions C16_restored.
Print Assumptions C16_update.
Print Assumptions C16_initialises.
Print Assumptions C17_no_error.
Print Assumptions C17_in_order.
Print Assumptions C17_conserved.
Print Assumptions C17_sequence.
Print Assumptions C17_content_refuted.
Print Assumptions C18_suffix.
Print Assumptions C18_exact.
Print Assumptions C18_acknowledges.
Print Assumptions C18_unbounded_refuted.
