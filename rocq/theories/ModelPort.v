(** core/port.py: flow control state, the port (ACK/NAK and flow control) and the link between two
    [SimPort]s, as a transition system.

    Concurrency.  Every coroutine runs atomically between two [await]s, so each such segment is one
    event of the system below; the events may occur in every order (the timers are allowed to fire
    at any time, which includes the real times).  Time is explicit only where the code compares or
    waits for it in a way that matters: the serialisation and propagation delay of a packet and the
    times [next_fc_*_tx].

    Simplifications.  Only VC 0 is modelled: [classify_tlp_vc] returns 0 (429-430) and no code
    activates another channel; [fc_init_vc] therefore stays 0.  The TLP object that is sent is not
    modified afterwards by its sender.  The link width and speed only determine the delays, which
    are arbitrary here. *)
From Verif Require Import Base ModelTlp ModelDllp.

(** The attributes [ph]/[nph]/[cplh] and [pd]/[npd]/[cpld] and others that exist once for each
    traffic class. *)
Record per3 (A : Type) := mk3 { g_p : A; g_np : A; g_cpl : A }.
Arguments mk3 {A}. Arguments g_p {A}. Arguments g_np {A}. Arguments g_cpl {A}.
Definition get3 {A} (ty : fc_type) (r : per3 A) : A :=
  match ty with FC_P => g_p r | FC_NP => g_np r | FC_CPL => g_cpl r end.
Definition set3 {A} (ty : fc_type) (v : A) (r : per3 A) : per3 A :=
  match ty with
  | FC_P => mk3 v (g_np r) (g_cpl r)
  | FC_NP => mk3 (g_p r) v (g_cpl r)
  | FC_CPL => mk3 (g_p r) (g_np r) v
  end.

(** core/port.py:80-105 [FcStateData]; [f_bits] is the field size (16, or 12 for headers, line 156;
    [tx_field_size] and [rx_field_size] are never changed). *)
Record fcs := mkFcs {
  f_bits : Z; tx_init : Z; tx_cons : Z; tx_limit : Z; rx_init : Z; rx_alloc : Z; rx_recv : Z }.
(** core/port.py:81-110 *)
Definition fcs_new (bits init : Z) : res fcs :=
  let init := Z.max init 0 in
  if init >=? 2 ^ (bits - 1) then Err ValueError else Ok (mkFcs bits 0 0 0 init init 0).
Definition f_mask (s : fcs) : Z := 2 ^ f_bits s - 1.
(** core/port.py:119-137 *)
Definition tx_is_infinite (s : fcs) : bool := tx_init s =? 0.
Definition rx_is_infinite (s : fcs) : bool := rx_init s =? 0.
Definition tx_credits_available (s : fcs) : Z :=
  if tx_is_infinite s then f_mask s else Z.land (tx_limit s - tx_cons s) (f_mask s).
Definition rx_credits_available (s : fcs) : Z :=
  if rx_is_infinite s then f_mask s else Z.land (rx_alloc s - rx_recv s) (f_mask s).
(** core/port.py:139-151 *)
Definition f_tx_consume (fc : Z) (s : fcs) : fcs :=
  if tx_is_infinite s then s
  else mkFcs (f_bits s) (tx_init s) (Z.land (tx_cons s + fc) (f_mask s)) (tx_limit s) (rx_init s) (rx_alloc s) (rx_recv s).
Definition f_rx_consume (fc : Z) (s : fcs) : fcs :=
  if rx_is_infinite s then s
  else mkFcs (f_bits s) (tx_init s) (tx_cons s) (tx_limit s) (rx_init s) (rx_alloc s) (Z.land (rx_recv s + fc) (f_mask s)).
Definition f_rx_release (fc : Z) (s : fcs) : fcs :=
  if rx_is_infinite s then s
  else mkFcs (f_bits s) (tx_init s) (tx_cons s) (tx_limit s) (rx_init s) (Z.land (rx_alloc s + fc) (f_mask s)) (rx_recv s).
(** Assignments of core/port.py:311-314 and 345-346. *)
Definition f_set_initial (v : Z) (s : fcs) : fcs :=
  mkFcs (f_bits s) v (tx_cons s) v (rx_init s) (rx_alloc s) (rx_recv s).
Definition f_set_limit (v : Z) (s : fcs) : fcs :=
  mkFcs (f_bits s) (tx_init s) (tx_cons s) v (rx_init s) (rx_alloc s) (rx_recv s).

(** core/port.py:160-187 [FcChannelState].  [c_rel] is [rx_release_fc_dict]; the token objects are
    numbered in the order of their creation ([c_tok] of them so far).  [c_nxt] are
    [next_fc_*_tx]; the events [fc_*_update] are only used to wake up waiting senders. *)
Record chan := mkChan {
  c_hdr : per3 fcs; c_dat : per3 fcs; c_active : bool; c_fi1 : bool; c_fi1t : per3 bool; c_fi2 : bool;
  c_initialized : bool; c_nxt : per3 Z; c_rel : list (nat * (fc_type * Z)); c_tok : nat }.
Definition chan_new (i : per3 (Z * Z)) (active : bool) : res chan :=
  ph <- fcs_new 12 (fst (g_p i)) ;; pd <- fcs_new 16 (snd (g_p i)) ;;
  nph <- fcs_new 12 (fst (g_np i)) ;; npd <- fcs_new 16 (snd (g_np i)) ;;
  cplh <- fcs_new 12 (fst (g_cpl i)) ;; cpld <- fcs_new 16 (snd (g_cpl i)) ;;
  Ok (mkChan (mk3 ph nph cplh) (mk3 pd npd cpld) active false (mk3 false false false) false false (mk3 0 0 0) [] 0).
Definition set_credits (h d : per3 fcs) (c : chan) : chan :=
  mkChan h d (c_active c) (c_fi1 c) (c_fi1t c) (c_fi2 c) (c_initialized c) (c_nxt c) (c_rel c) (c_tok c).
Definition on_credits (ty : fc_type) (fh fd : fcs -> fcs) (c : chan) : chan :=
  set_credits (set3 ty (fh (get3 ty (c_hdr c))) (c_hdr c)) (set3 ty (fd (get3 ty (c_dat c))) (c_dat c)) c.
Definition set_nxt (n : per3 Z) (c : chan) : chan :=
  mkChan (c_hdr c) (c_dat c) (c_active c) (c_fi1 c) (c_fi1t c) (c_fi2 c) (c_initialized c) n (c_rel c) (c_tok c).
Definition set_rel (r : list (nat * (fc_type * Z))) (k : nat) (c : chan) : chan :=
  mkChan (c_hdr c) (c_dat c) (c_active c) (c_fi1 c) (c_fi1t c) (c_fi2 c) (c_initialized c) (c_nxt c) r k.
Definition set_fi1 (t : per3 bool) (b : bool) (c : chan) : chan :=
  mkChan (c_hdr c) (c_dat c) (c_active c) b t (c_fi2 c) (c_initialized c) (c_nxt c) (c_rel c) (c_tok c).
Definition set_fi2 (c : chan) : chan :=
  mkChan (c_hdr c) (c_dat c) (c_active c) (c_fi1 c) (c_fi1t c) true true (c_nxt c) (c_rel c) (c_tok c).

(** core/port.py:211-217 *)
Definition tx_has_credit (ty : fc_type) (dc : Z) (c : chan) : bool :=
  (tx_credits_available (get3 ty (c_hdr c)) >? 0) && (tx_credits_available (get3 ty (c_dat c)) >=? dc).
(** core/port.py:222-231 *)
Definition tx_consume_fc (ty : fc_type) (dc : Z) (c : chan) : chan :=
  on_credits ty (f_tx_consume 1) (f_tx_consume dc) c.
(** core/port.py:252-261 *)
Definition rx_consume_fc (ty : fc_type) (dc : Z) (c : chan) : chan :=
  on_credits ty (f_rx_consume 1) (f_rx_consume dc) c.
(** core/port.py:266-279; the caller restarts the update timer. *)
Definition rx_release_fc (ty : fc_type) (dc : Z) (c : chan) : chan :=
  on_credits ty (f_rx_release 1) (f_rx_release dc) (set_nxt (set3 ty 0 (c_nxt c)) c).
(** core/port.py:284-287; [None] if the token is not in the dictionary (any more). *)
Fixpoint rel_find (n : nat) (l : list (nat * (fc_type * Z))) : option (fc_type * Z) :=
  match l with [] => None | (m, v) :: r => if Nat.eqb n m then Some v else rel_find n r end.
Definition rx_release_fc_token (n : nat) (c : chan) : option chan :=
  match rel_find n (c_rel c) with
  | None => None
  | Some (ty, dc) =>
    Some (rx_release_fc ty dc (set_rel (filter (fun x => negb (Nat.eqb n (fst x))) (c_rel c)) (c_tok c) c))
  end.
(** core/port.py:263-264, 289-298 [rx_process_tlp_fc] *)
Definition rx_process_tlp_fc (t : tlp) (c : chan) : res chan :=
  ty <- get_fc_type t ;;
  let dc := get_data_credits t in
  let c := rx_consume_fc ty dc c in
  Ok (set_rel (c_rel c ++ [(c_tok c, (ty, dc))]) (S (c_tok c)) c).

(** The sets of core/port.py:307-308, 310/316/322, 332-333 and 340/348/356. *)
Definition d_init_types : list Z := [D_INIT_FC1_P; D_INIT_FC1_NP; D_INIT_FC1_CPL; D_INIT_FC2_P; D_INIT_FC2_NP; D_INIT_FC2_CPL].
Definition d_init2_types : list Z :=
  [D_INIT_FC2_P; D_INIT_FC2_NP; D_INIT_FC2_CPL; D_UPDATE_FC_P; D_UPDATE_FC_NP; D_UPDATE_FC_CPL].
Definition d_update_types : list Z := [D_UPDATE_FC_P; D_UPDATE_FC_NP; D_UPDATE_FC_CPL].

(** core/port.py:300-363 [FcChannelState.handle_fc_dllp] *)
Definition handle_fc_dllp (d : dllp) (c : chan) : res chan :=
  if negb (c_active c) then Ok c
  else if negb (c_fi1 c) then
    if zmem (d_type d) d_init_types then
      ty <- dllp_fc_type (d_type d) ;;
      let c := on_credits ty (f_set_initial (d_hdr_fc d)) (f_set_initial (d_data_fc d)) c in
      let t := set3 ty true (c_fi1t c) in
      Ok (set_fi1 t (g_p t && g_np t && g_cpl t) c)
    else Ok c
  else if negb (c_fi2 c) then
    if zmem (d_type d) d_init2_types then Ok (set_fi2 c) else Ok c
  else if zmem (d_type d) d_update_types then
    ty <- dllp_fc_type (d_type d) ;;
    _ <- py_assert (negb (tx_is_infinite (get3 ty (c_hdr c))) || (d_hdr_fc d =? 0)) ;;
    _ <- py_assert (negb (tx_is_infinite (get3 ty (c_dat c))) || (d_data_fc d =? 0)) ;;
    Ok (on_credits ty (f_set_limit (d_hdr_fc d)) (f_set_limit (d_data_fc d)) c)
  else Ok c.

Inductive packet := PTlp (t : tlp) | PDllp (d : dllp).

(** core/port.py:368-420 [Port].  [p_pend] are the TLPs of senders that passed the credit gate and
    are about to put it into the transmit queue (of size one); [p_busy] is the packet being
    serialised by [handle_tx] and when that ends; [p_delay] and [p_steps] are [link_delay_steps] and
    [fc_update_steps].  [p_rxq] also names the token of each TLP. *)
#[projections(primitive)]
Record port := mkPort {
  p_next_tx : Z; p_ackd : Z; p_retry : list tlp; p_next_rx : Z; p_nak : bool; p_ack_timer : bool;
  p_send_ack : bool; p_send_fc : bool; p_fc_timer : bool; p_txq : list tlp; p_pend : list tlp;
  p_rxq : list (nat * tlp); p_ch : chan; p_fc_initialized : bool; p_fc_init_type : fc_type;
  p_busy : option (Z * packet); p_delay : Z; p_steps : Z }.

Definition set_p_next_tx (v : Z) (p : port) : port :=
  mkPort v (p_ackd p) (p_retry p) (p_next_rx p) (p_nak p) (p_ack_timer p) (p_send_ack p) (p_send_fc p) (p_fc_timer p) (p_txq p) (p_pend p) (p_rxq p) (p_ch p) (p_fc_initialized p) (p_fc_init_type p) (p_busy p) (p_delay p) (p_steps p).
Definition set_p_ackd (v : Z) (p : port) : port :=
  mkPort (p_next_tx p) v (p_retry p) (p_next_rx p) (p_nak p) (p_ack_timer p) (p_send_ack p) (p_send_fc p) (p_fc_timer p) (p_txq p) (p_pend p) (p_rxq p) (p_ch p) (p_fc_initialized p) (p_fc_init_type p) (p_busy p) (p_delay p) (p_steps p).
Definition set_p_retry (v : list tlp) (p : port) : port :=
  mkPort (p_next_tx p) (p_ackd p) v (p_next_rx p) (p_nak p) (p_ack_timer p) (p_send_ack p) (p_send_fc p) (p_fc_timer p) (p_txq p) (p_pend p) (p_rxq p) (p_ch p) (p_fc_initialized p) (p_fc_init_type p) (p_busy p) (p_delay p) (p_steps p).
Definition set_p_next_rx (v : Z) (p : port) : port :=
  mkPort (p_next_tx p) (p_ackd p) (p_retry p) v (p_nak p) (p_ack_timer p) (p_send_ack p) (p_send_fc p) (p_fc_timer p) (p_txq p) (p_pend p) (p_rxq p) (p_ch p) (p_fc_initialized p) (p_fc_init_type p) (p_busy p) (p_delay p) (p_steps p).
Definition set_p_nak (v : bool) (p : port) : port :=
  mkPort (p_next_tx p) (p_ackd p) (p_retry p) (p_next_rx p) v (p_ack_timer p) (p_send_ack p) (p_send_fc p) (p_fc_timer p) (p_txq p) (p_pend p) (p_rxq p) (p_ch p) (p_fc_initialized p) (p_fc_init_type p) (p_busy p) (p_delay p) (p_steps p).
Definition set_p_ack_timer (v : bool) (p : port) : port :=
  mkPort (p_next_tx p) (p_ackd p) (p_retry p) (p_next_rx p) (p_nak p) v (p_send_ack p) (p_send_fc p) (p_fc_timer p) (p_txq p) (p_pend p) (p_rxq p) (p_ch p) (p_fc_initialized p) (p_fc_init_type p) (p_busy p) (p_delay p) (p_steps p).
Definition set_p_send_ack (v : bool) (p : port) : port :=
  mkPort (p_next_tx p) (p_ackd p) (p_retry p) (p_next_rx p) (p_nak p) (p_ack_timer p) v (p_send_fc p) (p_fc_timer p) (p_txq p) (p_pend p) (p_rxq p) (p_ch p) (p_fc_initialized p) (p_fc_init_type p) (p_busy p) (p_delay p) (p_steps p).
Definition set_p_send_fc (v : bool) (p : port) : port :=
  mkPort (p_next_tx p) (p_ackd p) (p_retry p) (p_next_rx p) (p_nak p) (p_ack_timer p) (p_send_ack p) v (p_fc_timer p) (p_txq p) (p_pend p) (p_rxq p) (p_ch p) (p_fc_initialized p) (p_fc_init_type p) (p_busy p) (p_delay p) (p_steps p).
Definition set_p_fc_timer (v : bool) (p : port) : port :=
  mkPort (p_next_tx p) (p_ackd p) (p_retry p) (p_next_rx p) (p_nak p) (p_ack_timer p) (p_send_ack p) (p_send_fc p) v (p_txq p) (p_pend p) (p_rxq p) (p_ch p) (p_fc_initialized p) (p_fc_init_type p) (p_busy p) (p_delay p) (p_steps p).
Definition set_p_txq (v : list tlp) (p : port) : port :=
  mkPort (p_next_tx p) (p_ackd p) (p_retry p) (p_next_rx p) (p_nak p) (p_ack_timer p) (p_send_ack p) (p_send_fc p) (p_fc_timer p) v (p_pend p) (p_rxq p) (p_ch p) (p_fc_initialized p) (p_fc_init_type p) (p_busy p) (p_delay p) (p_steps p).
Definition set_p_pend (v : list tlp) (p : port) : port :=
  mkPort (p_next_tx p) (p_ackd p) (p_retry p) (p_next_rx p) (p_nak p) (p_ack_timer p) (p_send_ack p) (p_send_fc p) (p_fc_timer p) (p_txq p) v (p_rxq p) (p_ch p) (p_fc_initialized p) (p_fc_init_type p) (p_busy p) (p_delay p) (p_steps p).
Definition set_p_rxq (v : list (nat * tlp)) (p : port) : port :=
  mkPort (p_next_tx p) (p_ackd p) (p_retry p) (p_next_rx p) (p_nak p) (p_ack_timer p) (p_send_ack p) (p_send_fc p) (p_fc_timer p) (p_txq p) (p_pend p) v (p_ch p) (p_fc_initialized p) (p_fc_init_type p) (p_busy p) (p_delay p) (p_steps p).
Definition set_p_ch (v : chan) (p : port) : port :=
  mkPort (p_next_tx p) (p_ackd p) (p_retry p) (p_next_rx p) (p_nak p) (p_ack_timer p) (p_send_ack p) (p_send_fc p) (p_fc_timer p) (p_txq p) (p_pend p) (p_rxq p) v (p_fc_initialized p) (p_fc_init_type p) (p_busy p) (p_delay p) (p_steps p).
Definition set_p_fc_initialized (v : bool) (p : port) : port :=
  mkPort (p_next_tx p) (p_ackd p) (p_retry p) (p_next_rx p) (p_nak p) (p_ack_timer p) (p_send_ack p) (p_send_fc p) (p_fc_timer p) (p_txq p) (p_pend p) (p_rxq p) (p_ch p) v (p_fc_init_type p) (p_busy p) (p_delay p) (p_steps p).
Definition set_p_fc_init_type (v : fc_type) (p : port) : port :=
  mkPort (p_next_tx p) (p_ackd p) (p_retry p) (p_next_rx p) (p_nak p) (p_ack_timer p) (p_send_ack p) (p_send_fc p) (p_fc_timer p) (p_txq p) (p_pend p) (p_rxq p) (p_ch p) (p_fc_initialized p) v (p_busy p) (p_delay p) (p_steps p).
Definition set_p_busy (v : option (Z * packet)) (p : port) : port :=
  mkPort (p_next_tx p) (p_ackd p) (p_retry p) (p_next_rx p) (p_nak p) (p_ack_timer p) (p_send_ack p) (p_send_fc p) (p_fc_timer p) (p_txq p) (p_pend p) (p_rxq p) (p_ch p) (p_fc_initialized p) (p_fc_init_type p) v (p_delay p) (p_steps p).

(** core/port.py:368-420; [i] are the initial credits of VC 0 as (header, data). *)
Definition port_new (i : per3 (Z * Z)) (delay steps : Z) : res port :=
  c <- chan_new i true ;;
  Ok (mkPort 0 0xfff [] 0 false false false false false [] [] [] c false FC_P None delay steps).

(** core/port.py:236-250 (one pass of the credit gate, no [await] between the test and the
    consumption) within [send] (432-436); [None] while the sender has to wait.  The call of
    [pkt.release_fc] at 433 is a separate event. *)
Definition tx_gate (t : tlp) (p : port) : option port :=
  match get_fc_type t with
  | Err _ => None
  | Ok ty =>
    if c_initialized (p_ch p) && tx_has_credit ty (get_data_credits t) (p_ch p) then
      Some (set_p_pend (p_pend p ++ [t]) (set_p_ch (tx_consume_fc ty (get_data_credits t) (p_ch p)) p))
    else None
  end.

(** core/port.py:470-493: the DLLP types in the order in which updates are tried. *)
Definition update_due (now : Z) (c : chan) : option fc_type :=
  if negb (c_active c) || negb (c_fi2 c) then None
  else if g_p (c_nxt c) <=? now then Some FC_P
  else if g_np (c_nxt c) <=? now then Some FC_NP
  else if g_cpl (c_nxt c) <=? now then Some FC_CPL
  else None.
Definition fc_dllp (code : Z) (ty : fc_type) (c : chan) : dllp :=
  mkDllp code 0 0 0 (rx_alloc (get3 ty (c_hdr c))) 0 (rx_alloc (get3 ty (c_dat c))) 0 false.
Definition update_code (ty : fc_type) : Z :=
  match ty with FC_P => D_UPDATE_FC_P | FC_NP => D_UPDATE_FC_NP | FC_CPL => D_UPDATE_FC_CPL end.
Definition init_code (fi1 : bool) (ty : fc_type) : Z :=
  match ty with
  | FC_P => if fi1 then D_INIT_FC2_P else D_INIT_FC1_P
  | FC_NP => if fi1 then D_INIT_FC2_NP else D_INIT_FC1_NP
  | FC_CPL => if fi1 then D_INIT_FC2_CPL else D_INIT_FC1_CPL
  end.
Definition next_init_type (ty : fc_type) : fc_type :=
  match ty with FC_P => FC_NP | FC_NP => FC_CPL | FC_CPL => FC_P end.

(** core/port.py:463-493 *)
Definition tx_update (now : Z) (p : port) : port * option dllp :=
  match update_due now (p_ch p) with
  | None => (p, None)
  | Some ty =>
    (set_p_ch (set_nxt (set3 ty (now + p_steps p) (c_nxt (p_ch p))) (p_ch p)) p,
     Some (fc_dllp (update_code ty) ty (p_ch p)))
  end.
(** core/port.py:495-526 *)
Definition tx_init_fc (p : port) : port * dllp :=
  let ty := p_fc_init_type p in
  (set_p_fc_initialized (negb (c_active (p_ch p) && negb (c_fi2 (p_ch p))))
     (set_p_fc_init_type (next_init_type ty) p),
   fc_dllp (init_code (c_fi1 (p_ch p)) ty) ty (p_ch p)).
(** core/port.py:534-539 *)
Definition tx_tlp (p : port) : port * option packet :=
  match p_txq p with
  | [] => (p, None)
  | t :: q =>
    let t := set_seq (p_next_tx p) t in
    (set_p_txq q (set_p_retry (p_retry p ++ [t]) (set_p_next_tx (Z.land (p_next_tx p + 1) 0xfff) p)), Some (PTlp t))
  end.
Definition is_nil {A} (l : list A) : bool := match l with [] => true | _ => false end.
(** core/port.py:445-539, one iteration of the loop of [_run_transmit]. *)
Definition tx_select (now : Z) (p : port) : port * option packet :=
  if p_send_ack p then
    let seq := Z.land (p_next_rx p - 1) 0xfff in
    (set_p_send_ack false p, Some (PDllp (if p_nak p then create_nak seq else create_ack seq)))
  else if p_send_fc p || (negb (p_fc_initialized p) && is_nil (p_txq p)) then
    let '(p, d) := if p_send_fc p then tx_update now p else (p, None) in
    match d with
    | Some d => (p, Some (PDllp d))
    | None =>
      if negb (p_fc_initialized p) then
        let '(p, d) := tx_init_fc p in (p, Some (PDllp d))
      else tx_tlp (set_p_send_fc false p)
    end
  else tx_tlp p.

(** core/port.py:594-598; an empty retry buffer raises [QueueEmpty]. *)
Fixpoint purge (seq ackd : Z) (retry : list tlp) : res (Z * list tlp) :=
  if seq =? ackd then Ok (ackd, retry)
  else match retry with
       | [] => Err PyException
       | _ :: r => purge seq (Z.land (ackd + 1) 0xfff) r
       end.
(** core/port.py:581-609 [Port.handle_dllp] *)
Definition handle_dllp (d : dllp) (p : port) : res port :=
  if d_type d =? D_NOP then Ok p
  else if zmem (d_type d) d_seq_types then
    if Z.land (Z.land (p_next_tx p - 1) 0xfff - d_seq d) 0xfff >? 2048 then Ok p
    else if Z.land (d_seq d - p_ackd p) 0xfff >? 2048 then Ok p
    else
      '(ackd, retry) <- purge (d_seq d) (p_ackd p) (p_retry p) ;;
      if d_type d =? D_NAK then Err PyException
      else Ok (set_p_ackd ackd (set_p_retry retry p))
  else if zmem (d_type d) d_fc_types then
    if d_vc d =? 0 then c <- handle_fc_dllp d (p_ch p) ;; Ok (set_p_ch c p)
    else Ok p
  else Err PyException.

(** core/port.py:547-572 [Port.ext_recv]; 611-621 for the timer. *)
Definition ext_recv (k : packet) (p : port) : res port :=
  match k with
  | PDllp d => handle_dllp d p
  | PTlp t =>
    if seq t =? p_next_rx p then
      let t := tlp_copy t in
      c <- rx_process_tlp_fc t (p_ch p) ;;
      Ok (set_p_rxq (p_rxq p ++ [(c_tok (p_ch p), t)])
            (set_p_ch c (set_p_ack_timer true (set_p_nak false
               (set_p_next_rx (Z.land (p_next_rx p + 1) 0xfff) p)))))
    else if Z.land (p_next_rx p - seq t) 0xfff <? 2048 then
      Ok (set_p_send_ack true (set_p_ack_timer false p))
    else if p_nak p then Ok p
    else Ok (set_p_send_ack true (set_p_ack_timer false (set_p_nak true p)))
  end.

(** ** Two ports and the wires between them

    [s_flight s] are the packets sent by side [s] that are propagating, each with its time of
    arrival (core/port.py:705-713).  [s_log] records what happened, oldest first; the specification
    speaks about it. *)
Inductive entry :=
| LGate (s : bool) (t : tlp)      (** a sender of port [s] passed the credit gate with [t] *)
| LTx (s : bool) (t : tlp)        (** port [s] starts to transmit [t] *)
| LRx (s : bool) (t : tlp)        (** port [s] accepts the received [t] *)
| LHandle (s : bool) (t : tlp)    (** the receive handler of port [s] gets [t] *)
| LRelease (s : bool) (n : nat)   (** the credits of the n-th TLP accepted by [s] are released *)
| LDllpTx (s : bool) (d : dllp)
| LDllpRx (s : bool) (d : dllp).
Record sys := mkSys {
  s_port : bool -> port; s_flight : bool -> list (Z * packet); s_now : Z; s_log : list entry }.
Definition upd {A} (s : bool) (v : A) (f : bool -> A) : bool -> A := fun x => if Bool.eqb x s then v else f x.
Definition sys_port (s : bool) (p : port) (l : list entry) (st : sys) : sys :=
  mkSys (upd s p (s_port st)) (s_flight st) (s_now st) (s_log st ++ l).

Inductive event :=
| EGate (s : bool) (t : tlp) | EPut (s : bool) (i : nat) | ETx (s : bool) (wire : Z) | ETxDone (s : bool)
| EArrive (s : bool) (i : nat) | EHandle (s : bool) | ERelease (s : bool) (n : nat)
| EAckTimer (s : bool) | EFcTimer (s : bool) | EIdle (s : bool) | ETick (n : Z).

Fixpoint remove_nth {A} (i : nat) (l : list A) : list A :=
  match l, i with [] , _ => [] | _ :: r, O => r | x :: r, S i => x :: remove_nth i r end.
Definition log_tx (s : bool) (k : packet) : entry :=
  match k with PTlp t => LTx s t | PDllp d => LDllpTx s d end.
(** What [ext_recv] accepts: TLPs out of sequence are not logged. *)
Definition log_rx (s : bool) (k : packet) (p : port) : list entry :=
  match k with
  | PTlp t => if seq t =? p_next_rx p then [LRx s (tlp_copy t)] else []
  | PDllp d => [LDllpRx s d]
  end.

(** An event that is not possible leaves the state unchanged. *)
Definition step (e : event) (st : sys) : res sys :=
  match e with
  | EGate s t =>
    match tx_gate t (s_port st s) with
    | None => Ok st
    | Some p => Ok (sys_port s p [LGate s t] st)
    end
  | EPut s i =>                                     (* 435, the queue holds one TLP (378) *)
    let p := s_port st s in
    match p_txq p, nth_error (p_pend p) i with
    | [], Some t => Ok (sys_port s (set_p_txq [t] (set_p_pend (remove_nth i (p_pend p)) p)) [] st)
    | _, _ => Ok st
    end
  | ETx s wire =>                                   (* 440-542, 706 *)
    let p := s_port st s in
    match p_busy p, tx_select (s_now st) p with
    | None, (p, Some k) => Ok (sys_port s (set_p_busy (Some (s_now st + Z.max wire 1, k)) p) [log_tx s k] st)
    | None, (p, None) => Ok (sys_port s p [] st)
    | Some _, _ => Ok st
    end
  | ETxDone s =>                                    (* 706-712 *)
    let p := s_port st s in
    match p_busy p with
    | Some (t, k) =>
      if t =? s_now st then
        Ok (mkSys (upd s (set_p_busy None p) (s_port st))
              (upd s (s_flight st s ++ [(t + Z.max (p_delay p) 1, k)]) (s_flight st)) (s_now st) (s_log st))
      else Ok st
    | None => Ok st
    end
  | EArrive s i =>                                  (* 712-713 *)
    match nth_error (s_flight st s) i with
    | Some (t, k) =>
      if t =? s_now st then
        let p := s_port st (negb s) in
        p' <- ext_recv k p ;;
        Ok (mkSys (upd (negb s) p' (s_port st)) (upd s (remove_nth i (s_flight st s)) (s_flight st)) (s_now st)
              (s_log st ++ log_rx (negb s) k p))
      else Ok st
    | None => Ok st
    end
  | EHandle s =>                                    (* 574-579 *)
    let p := s_port st s in
    match p_rxq p with
    | [] => Ok st
    | (_, t) :: r => Ok (sys_port s (set_p_rxq r p) [LHandle s t] st)
    end
  | ERelease s n =>                                 (* core/tlp.py:472-474, core/port.py:284-287 *)
    let p := s_port st s in
    if (n <? c_tok (p_ch p))%nat then
      match rx_release_fc_token n (p_ch p) with
      | None => Ok (sys_port s p [LRelease s n] st)
      | Some c => Ok (sys_port s (set_p_fc_timer true (set_p_ch c p)) [LRelease s n] st)
      end
    else Ok st
  | EAckTimer s =>                                  (* 623-626 *)
    let p := s_port st s in
    if p_ack_timer p then
      let p := set_p_ack_timer false p in
      Ok (sys_port s (if p_nak p then p else set_p_send_ack true p) [] st)
    else Ok st
  | EFcTimer s =>                                   (* 640-642 *)
    let p := s_port st s in
    if p_fc_timer p then Ok (sys_port s (set_p_send_fc true (set_p_fc_timer false p)) [] st) else Ok st
  | EIdle s => Ok (sys_port s (set_p_send_fc true (s_port st s)) [] st)      (* 644-647 *)
  | ETick n =>
    let late x := fst x <? s_now st + n in
    let busy_late s := match p_busy (s_port st s) with Some (t, _) => t <? s_now st + n | None => false end in
    if (0 <? n) && negb (existsb late (s_flight st true)) && negb (existsb late (s_flight st false))
       && negb (busy_late true) && negb (busy_late false)
    then Ok (mkSys (s_port st) (s_flight st) (s_now st + n) (s_log st))
    else Ok st
  end.
Fixpoint run (es : list event) (st : sys) : res sys :=
  match es with [] => Ok st | e :: r => st <- step e st ;; run r st end.

(** Two new ports, connected (core/port.py:662-703). *)
Definition link_new (ia ib : per3 (Z * Z)) (delay_a delay_b steps : Z) : res sys :=
  a <- port_new ia delay_a steps ;; b <- port_new ib delay_b steps ;;
  Ok (mkSys (fun s => if s then a else b) (fun _ => []) 0 []).
