(** C55: the configuration interfaces of the UltraScale device models. *)
From Verif Require Import Base ModelUtils ModelTlp ModelAttrs ModelCaps ModelCapList ModelConfig ModelDllp ModelPort ModelTlCfg ModelUsCfg
  SpecRegs SpecCaps SpecConfig SpecPort SpecTlCfg SpecUsCfg ProofsPort ProofsPortInv ProofsPortWin ProofsTlCfg ProofsUsCfg.

(** ** Status *)
(** In every cycle the status signals show the registers as the host sees them: width, speed, payload and read request size of function 0, and of every
    function the bus master enable, the interrupt disable and the read completion boundary.  Missing: the other two bits of cfg_function_status. *)
Theorem C55_status_partial : forall plus reset fs s, Forall (fun f => pe_ok (w_pe f)) fs -> us_status plus reset fs = Some s ->
  status_ok plus reset fs low_two s.
Proof. exact status_shows. Qed.
(** The condition holds at the start and is kept by the host's writes. *)
Theorem C55_status_start : pe_ok pec_init.
Proof. exact pe_start. Qed.
Theorem C55_status_kept : forall reg data be s, pe_ok s -> pe_ok (pec_write reg data be s).
Proof. exact pe_kept. Qed.
Definition z : attrs := fun _ => 0.
(** Link of 8 lanes, generation 3; the host sets 512 bytes payload and 4096 bytes read requests, bus master and, for the second function, memory space
    and interrupt disable. *)
Definition pe8 : attrs := aset pe_negotiated_link_width 8 (aset pe_current_link_speed 3 pec_init).
Definition cmd_w (data : Z) : attrs := ModelConfig.f_attr (ep_write 1 data 0xf (mkFn z (fun _ => mkCap KMsi 0 0 0 None 0 z) [] [] (mkId 0 0 0))).
Definition f_a : cfn := mkCfn (mkId 5 0 0) (cmd_w 7) (pec_write 2 0x5040 0xf pe8) z z z z.
Definition f_b : cfn := mkCfn (mkId 5 0 1) (cmd_w 0x402) (pec_write 4 8 0xf pec_init) z z z z.
Example C55_status_ex : Forall (fun f => pe_ok (w_pe f)) [f_a; f_b] /\ command f_a = 7 /\ slice (device_control f_a) 12 3 = 5 /\
  us_status false false [f_a; f_b] = Some (mkStat 0 1 8 4 2 5 0x87 2) /\ us_status true true [f_a; f_b] = Some (mkStat 1 0 3 2 2 5 0x87 2).
Proof.
  split; [|vm_compute; repeat split]. repeat constructor; cbn [w_pe f_a f_b]; try apply pe_kept; try exact pe_start; split; vm_compute; split; congruence.
Qed.
(** Bits 0 and 1 of the status of a function (I/O and memory space enable) show the bus master enable as well: the host has enabled the memory
    space only and the user logic does not see it; the host has only made the function bus master and the user logic sees memory space enabled. *)
Theorem C55_status_refuted : exists f g s, pe_ok (w_pe f) /\ pe_ok (w_pe g) /\ us_status true false [f; g] = Some s /\
  Z.testbit (command f) (status_bit 1) = true /\ Z.testbit (s_func s) 1 = false /\
  Z.testbit (command g) (status_bit 1) = false /\ Z.testbit (s_func s) 5 = true.
Proof.
  exists (mkCfn (mkId 0 0 0) (cmd_w 2) pec_init z z z z), (mkCfn (mkId 0 0 1) (cmd_w 4) pec_init z z z z). eexists.
  split; [exact pe_start|]. split; [exact pe_start|]. split; [vm_compute; reflexivity|]. vm_compute. repeat split.
Qed.

(** ** Errors *)
(** UltraScale+: the errors are shown in the order in which they were reported, each once. *)
Theorem C55_errors : forall l q, let (o, q') := usp_errs l q in valid_ones o ++ q' = q ++ reports l.
Proof. exact errs_in_order. Qed.
Example C55_errors_ex : usp_errs [Report 9; Report 3; EEdge; EEdge; EEdge] [] = ([(9, 1); (3, 1); (0, 0)], []).
Proof. reflexivity. Qed.

(** ** Flow control *)
(** The transmit credits shown (selection 4) are never more than what the link partner has left, and a TLP for which they suffice passes the gate. *)
Theorem C55_fc_safe : forall plus ia ib st s v k ty, reach ia ib st -> c_fi2 (p_ch (s_port st s)) = true -> us_fc plus 4 (p_ch (s_port st s)) = Ok v ->
  advertised ia ib k ty (negb s) = 0 \/ 0 <= fc_shown k ty v <= advertised ia ib k ty (negb s) - in_use k ty s (s_log st).
Proof. exact fc_tx. Qed.
Theorem C55_fc_go : forall plus ia ib st s v t ty, reach ia ib st -> c_fi2 (p_ch (s_port st s)) = true -> us_fc plus 4 (p_ch (s_port st s)) = Ok v ->
  get_fc_type t = Ok ty -> credits false ty t <= fc_shown false ty v -> credits true ty t <= fc_shown true ty v ->
  exists st', step (EGate s t) st = Ok st' /\ gated s (s_log st') = gated s (s_log st) ++ [t].
Proof. exact fc_go. Qed.
(** Full statement: the credits shown are those that are left.  Proved for values that fit the signals. *)
Theorem C55_fc_exact_partial : forall plus ia ib st s v k ty, reach ia ib st -> us_fc plus 4 (p_ch (s_port st s)) = Ok v ->
  tx_credits_available (fcof k ty (p_ch (s_port st s))) < 2 ^ fc_bits k -> fc_shown k ty v = tx_credits_available (fcof k ty (p_ch (s_port st s))).
Proof. exact fc_exact. Qed.
(** UltraScale, selection 0: the credits of the own receive buffers that are left, modulo the width of the signals; all ones without a limit. *)
Theorem C55_fc_rx : forall ia ib st s v k ty, reach ia ib st -> us_fc false 0 (p_ch (s_port st s)) = Ok v ->
  fc_shown k ty v = if advertised ia ib k ty s =? 0 then 2 ^ fc_bits k - 1 else (advertised ia ib k ty s - held k ty s (s_log st)) mod 2 ^ fc_bits k.
Proof. exact fc_rx. Qed.
(** The credit limit (5) and the credits consumed (6) fit to those available (4). *)
Theorem C55_fc_diff : forall plus ia ib st s k ty v4 v5 v6, reach ia ib st -> c_fi2 (p_ch (s_port st s)) = true -> advertised ia ib k ty (negb s) <> 0 ->
  us_fc plus 4 (p_ch (s_port st s)) = Ok v4 -> us_fc plus 5 (p_ch (s_port st s)) = Ok v5 -> us_fc plus 6 (p_ch (s_port st s)) = Ok v6 ->
  fc_shown k ty v4 = (fc_shown k ty v5 - fc_shown k ty v6) mod 2 ^ fc_bits k.
Proof. exact fc_diff. Qed.
(** Buffers of 2 headers and 300 data credits, and 256 headers and 4096 data credits at the peer; after the initialisation and a write of five DWORDs. *)
Definition adv_a : per3 (Z * Z) := mk3 (2, 300) (1, 1) (0, 0).
Definition adv_b : per3 (Z * Z) := mk3 (256, 4097) (3, 40) (0, 0).
Definition a_write : tlp := set_th true (set_tlen 5 (set_data (map Z.of_nat (List.seq 0 20)) (set_fmt_type MEM_WRITE tlp0))).
Definition an_init : list event := times 3 (xfer true) ++ times 3 (xfer false) ++ times 3 (xfer true) ++ times 3 (xfer false).
Definition a_run (es : list event) : res sys := s <- link_new adv_a adv_b 1 1 1000 ;; run es s.
Definition a_shown (plus : bool) (sel : Z) (s : bool) (es : list event) : res (per3 (Z * Z)) := st <- a_run es ;; us_fc plus sel (p_ch (s_port st s)).
Lemma a_reach es st : a_run es = Ok st -> reach adv_a adv_b st.
Proof.
  unfold a_run. destruct (link_new adv_a adv_b 1 1 1000) as [s0|] eqn:E; [|discriminate]. cbn [bind].
  intros H. exists 1, 1, 1000, s0, es. auto.
Qed.
Example C55_fc_ex :
  a_shown true 4 false an_init = Ok (mk3 (2, 300) (1, 1) (255, 4095)) /\
  a_shown true 4 false (an_init ++ [EGate false a_write]) = Ok (mk3 (1, 298) (1, 1) (255, 4095)) /\
  a_shown false 5 false (an_init ++ [EGate false a_write]) = Ok (mk3 (2, 300) (1, 1) (0, 0)) /\
  a_shown false 6 false (an_init ++ [EGate false a_write]) = Ok (mk3 (1, 2) (0, 0) (0, 0)) /\
  a_shown false 0 true (an_init ++ [EGate false a_write; EPut false 0] ++ xfer false ++ xfer false) = Ok (mk3 (1, 298) (1, 1) (255, 4095)).
Proof. vm_compute. repeat split. Qed.
(** 256 headers and 4097 data credits are left for posted requests, and the signals show 0 headers and 1 data credit. *)
Theorem C55_fc_wrap_refuted : exists ia ib st v, reach ia ib st /\ c_fi2 (p_ch (s_port st true)) = true /\
  us_fc true 4 (p_ch (s_port st true)) = Ok v /\ us_fc false 4 (p_ch (s_port st true)) = Ok v /\
  advertised ia ib false FC_P false - in_use false FC_P true (s_log st) = 256 /\ advertised ia ib true FC_P false - in_use true FC_P true (s_log st) = 4097 /\
  fc_shown false FC_P v = 0 /\ fc_shown true FC_P v = 1.
Proof.
  destruct (a_run an_init) as [st|] eqn:E; [|vm_compute in E; discriminate].
  exists adv_a, adv_b, st, (mk3 (0, 1) (3, 40) (255, 4095)). split; [exact (a_reach _ _ E)|].
  vm_compute in E. injection E as <-. vm_compute. repeat split.
Qed.
(** UltraScale+, selection 2, credits consumed at the receiver: the attribute does not exist, the coroutine ends with an exception. *)
Theorem C55_fc_consumed_refuted : forall c, us_fc true 2 c = Err AttributeError.
Proof. reflexivity. Qed.

(** ** Configuration management *)
(** Every access is performed once, in order, with the effect of a configuration request of the host; done is set for one cycle, four cycles after the
    request, with the data of the read.  [segs_do]: the accesses can be done (function and register exist). *)
Theorem C55_mgmt : forall l fns rd o fns' rd', Forall seg_ok l -> segs_do l fns rd = Some (o, fns', rd') ->
  mg_run (flat_map seg_events l) (mkMst MIdle false rd fns) = (o, mkMst MIdle false rd' fns').
Proof. exact mgmt_ok. Qed.
(** Whatever happens at the signals is such a sequence, with at most one access not done yet at the end. *)
Theorem C55_mgmt_all : forall es, exists l tail, Forall seg_ok l /\ es = flat_map seg_events l ++ tail /\
  (tail = [] \/ exists i r, requests i = true /\ tail = Edge i :: r /\ (edges tail < 5)%nat).
Proof. intros es. exact (mgmt_all (length es) es (le_n _)). Qed.
(** What is written is what can be read afterwards, in the bits that can be written. *)
Theorem C55_mgmt_write : forall fns rd k f reg data be v rw w1c exc i r a b c d a' b' c' d',
  nth_error fns k = Some f -> 0 <= be < 16 -> ep_read f reg = Ok (Some v) -> cfg_masks ep_rw ep_w1c (tab [(3, 0x40000000)]) f reg = Some (rw, w1c, exc) ->
  requests i = true -> mi_read i = false -> mi_int i = false -> mi_fn i = k -> mi_reg i = reg -> mi_data i = data -> mi_be i = be ->
  mi_read r = true -> mi_int r = false -> mi_fn r = k -> mi_reg r = reg ->
  exists v' fns', mg_run (flat_map seg_events [SAccess i ([], a) ([], b) ([], c) ([], d); SAccess r ([], a') ([], b') ([], c') ([], d')]) (mkMst MIdle false rd fns) =
      ([(false, rd); (false, rd); (false, rd); (true, rd); (false, rd); (false, rd); (false, rd); (false, rd); (true, v'); (false, v')], mkMst MIdle false v' fns') /\
    (forall j, 0 <= j -> Z.testbit exc j = false -> Z.testbit v' j = upd_bit rw w1c be data v j) /\
    (forall m, m <> k -> nth_error fns' m = nth_error fns m).
Proof. exact write_read. Qed.
(** UltraScale: function, register and the bit for internal registers share one address. *)
Theorem C55_mgmt_address : forall fn reg, (fn < 128)%nat -> 0 <= reg < 1024 ->
  us_mgmt_addr (1024 * Z.of_nat fn + reg) = (fn, reg, false) /\ us_mgmt_addr (2 ^ 18 + 1024 * Z.of_nat fn + reg) = (fn, reg, true).
Proof. exact addr_split. Qed.
(** Two functions; the user logic writes the command register of the second one with byte enables 1 while the host writes that of the first one,
    and reads it. *)
Definition fn_ex (n : Z) : fnc := mkFn z (fun _ => mkCap KMsi 0 0 0 None 0 z) [] [] (mkId 5 0 n).
Definition no_req : minp := mkMi 0 0 0 0 false false false.
Definition w_ex : minp := mkMi 1 1 0x546 1 false true false.
Definition r_ex (k : nat) : minp := mkMi k 1 0 0 true false false.
Definition host_ex : list fnc -> list fnc := write_nth 0 (ep_write 1 0x100 0xf).
Definition segs_ex : list seg :=
  [SIdle no_req; SAccess w_ex ([], w_ex) ([host_ex], w_ex) ([], w_ex) ([], w_ex); SAccess (r_ex 1) ([], no_req) ([], no_req) ([], no_req) ([], no_req);
   SAccess (r_ex 0) ([], no_req) ([], no_req) ([], no_req) ([], no_req)].
Example C55_mgmt_ex : Forall seg_ok segs_ex /\
  fst (mg_run (flat_map seg_events segs_ex) (mkMst MIdle false 0 [fn_ex 0; fn_ex 1])) =
    [(false, 0); (false, 0); (false, 0); (false, 0); (true, 0); (false, 0); (false, 0); (false, 0); (false, 0); (true, 0x46); (false, 0x46);
     (false, 0x46); (false, 0x46); (false, 0x46); (true, 0x100); (false, 0x100)] /\
  match segs_do segs_ex [fn_ex 0; fn_ex 1] 0 with Some (_, _, v) => v | None => 0 end = 0x100.
Proof. split; [repeat constructor|]. vm_compute. repeat split. Qed.
(** A request for a function that does not exist is never done, and no other one after it. *)
Theorem C55_mgmt_dead_refuted : exists fns i, requests i = true /\ mi_int i = false /\ forall rd a b c es,
  exists s', mg_run ([Edge i; Edge a; Edge b; Edge c] ++ es) (mkMst MIdle false rd fns) = (repeat (false, rd) (4 + edges es), s').
Proof. exists [fn_ex 0], (r_ex 1). split; [reflexivity|]. split; [reflexivity|]. intros. apply mgmt_dead; reflexivity. Qed.

Print Assumptions C55_status_partial.
Print Assumptions C55_status_start.
Print Assumptions C55_status_kept.
Print Assumptions C55_status_refuted.
Print Assumptions C55_errors.
Print Assumptions C55_fc_safe.
Print Assumptions C55_fc_go.
Print Assumptions C55_fc_exact_partial.
Print Assumptions C55_fc_rx.
Print Assumptions C55_fc_diff.
Print Assumptions C55_fc_wrap_refuted.
Print Assumptions C55_fc_consumed_refuted.
Print Assumptions C55_mgmt.
Print Assumptions C55_mgmt_all.
Print Assumptions C55_mgmt_write.
Print Assumptions C55_mgmt_address.
Print Assumptions C55_mgmt_dead_refuted.
