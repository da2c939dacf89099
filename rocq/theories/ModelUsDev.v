(** xilinx/us/us_model.py and xilinx/us/usp_model.py: the device models behind the four streams.

    Line numbers are those of us_model.py / usp_model.py.  The coroutines are modelled by their segments between two [await]s;
    the segments may occur in every order.  An exception ends the execution ([Err]). *)
From Verif Require Import Base ModelUtils ModelTlp ModelRegion ModelFrames ModelUs ModelConfig ModelFunction ModelRoute ModelTags ModelChan.

(** The two cores differ in constants: 340-358 / 393-408, and 1049 / 1189 for [co_tag_max]. *)
Record core := mkCore { co_plus : bool; co_cplh : Z; co_cpld : Z; co_tag_count : Z; co_tag_max : Z }.
Definition us_core : core := mkCore false 64 1024 64 64.
Definition usp_core : core := mkCore true 256 2048 256 256.
(** [rq_np_limit], 337 / 391 *)
Definition np_limit : Z := 16.

(** ** Requests and completions *)
(** Constructor arguments [enable_client_tag] and [enable_parity], and the core. *)
Record uopt := mkUopt { o_core : core; o_client : bool; o_parity : bool }.
(** What configuration accesses may change at any time: the bus number, the ids of the functions, their [bus_master_enable], and
    [functions[0].pcie_cap.extended_tag_field_enable]. *)
Record ucfg := mkUcfg { g_bus : Z; g_ids : list pcie_id; g_bme : list bool; g_ext : bool }.

(** [_run_rq_logic] waits for a frame, for space in the queue, or for [send]. *)
Inductive rqtask := AIdle | AFull (u : tlp_us) | ASend (u : tlp_us).
(** [_run_rq_np_queue_logic] waits for a request, for credits, for tags, or for [send]. *)
Inductive nptask := BIdle | BCredit (u : tlp_us) | BTag (u : tlp_us) | BSend (u : tlp_us).
(** [_run_rc_logic] waits for a completion or for the stream. *)
Inductive rctask := RIdle | RSend (u : tlp_us).
(** What happened, oldest first; only the specification looks at it.  [EIssue]: with the number of tags in use at that time. *)
Inductive uevent :=
| EAccept (u : tlp_us)                     (** taken from the RQ stream *)
| EDrop (u : tlp_us)                       (** discarded, bus mastering is disabled *)
| EIssue (u : tlp_us) (ntags : Z)          (** given to [send] *)
| ECpl (c : tlp) (u : tlp_us) (ok : bool)  (** completion [c] arrived and was stored as [u], or lost as there is no space *)
| EOut (u : tlp_us)                        (** given to the RC stream *)
| ETag (t : Z) | ESeq (n : Z) | EErr.      (** a tag, a sequence number, an error is shown to the user *)

Record udev := mkUdev {
  w_cfg : ucfg; w_a : rqtask; w_b : nptask; w_r : rctask;
  w_np : list tlp_us;                                  (** [rq_np_queue] *)
  w_deq : bool; w_rel : bool; w_tag : bool;            (** events [rq_np_queue_dequeue], [cpld_credit_released], [tag_release] *)
  w_active : Z -> option tlp_us;                       (** [active_request], 256 entries *)
  w_avail : Z; w_cur : Z;                              (** [tag_available_count], [current_tag] *)
  w_credit : Z;                                        (** [cpld_credit_count] *)
  w_tags : list Z; w_seqs : list Z;                    (** [rq_tag], [rq_seq_num] *)
  w_hc : Z; w_dc : Z;                                  (** [rx_buf_cplh_fc_count], [rx_buf_cpld_fc_count] *)
  w_rcq : list tlp_us;                                 (** [rc_queue] *)
  w_lerr : Z;                                          (** errors waiting to be reported: [local_error], a flag / a queue *)
  w_log : list uevent }.
#[local] Notation U := mkUdev.
Definition set_w_cfg v s := U v (w_a s) (w_b s) (w_r s) (w_np s) (w_deq s) (w_rel s) (w_tag s) (w_active s) (w_avail s) (w_cur s) (w_credit s) (w_tags s) (w_seqs s) (w_hc s) (w_dc s) (w_rcq s) (w_lerr s) (w_log s).
Definition set_w_a v s := U (w_cfg s) v (w_b s) (w_r s) (w_np s) (w_deq s) (w_rel s) (w_tag s) (w_active s) (w_avail s) (w_cur s) (w_credit s) (w_tags s) (w_seqs s) (w_hc s) (w_dc s) (w_rcq s) (w_lerr s) (w_log s).
Definition set_w_b v s := U (w_cfg s) (w_a s) v (w_r s) (w_np s) (w_deq s) (w_rel s) (w_tag s) (w_active s) (w_avail s) (w_cur s) (w_credit s) (w_tags s) (w_seqs s) (w_hc s) (w_dc s) (w_rcq s) (w_lerr s) (w_log s).
Definition set_w_r v s := U (w_cfg s) (w_a s) (w_b s) v (w_np s) (w_deq s) (w_rel s) (w_tag s) (w_active s) (w_avail s) (w_cur s) (w_credit s) (w_tags s) (w_seqs s) (w_hc s) (w_dc s) (w_rcq s) (w_lerr s) (w_log s).
Definition set_w_np v s := U (w_cfg s) (w_a s) (w_b s) (w_r s) v (w_deq s) (w_rel s) (w_tag s) (w_active s) (w_avail s) (w_cur s) (w_credit s) (w_tags s) (w_seqs s) (w_hc s) (w_dc s) (w_rcq s) (w_lerr s) (w_log s).
Definition set_w_deq v s := U (w_cfg s) (w_a s) (w_b s) (w_r s) (w_np s) v (w_rel s) (w_tag s) (w_active s) (w_avail s) (w_cur s) (w_credit s) (w_tags s) (w_seqs s) (w_hc s) (w_dc s) (w_rcq s) (w_lerr s) (w_log s).
Definition set_w_rel v s := U (w_cfg s) (w_a s) (w_b s) (w_r s) (w_np s) (w_deq s) v (w_tag s) (w_active s) (w_avail s) (w_cur s) (w_credit s) (w_tags s) (w_seqs s) (w_hc s) (w_dc s) (w_rcq s) (w_lerr s) (w_log s).
Definition set_w_tag v s := U (w_cfg s) (w_a s) (w_b s) (w_r s) (w_np s) (w_deq s) (w_rel s) v (w_active s) (w_avail s) (w_cur s) (w_credit s) (w_tags s) (w_seqs s) (w_hc s) (w_dc s) (w_rcq s) (w_lerr s) (w_log s).
Definition set_w_active v s := U (w_cfg s) (w_a s) (w_b s) (w_r s) (w_np s) (w_deq s) (w_rel s) (w_tag s) v (w_avail s) (w_cur s) (w_credit s) (w_tags s) (w_seqs s) (w_hc s) (w_dc s) (w_rcq s) (w_lerr s) (w_log s).
Definition set_w_avail v s := U (w_cfg s) (w_a s) (w_b s) (w_r s) (w_np s) (w_deq s) (w_rel s) (w_tag s) (w_active s) v (w_cur s) (w_credit s) (w_tags s) (w_seqs s) (w_hc s) (w_dc s) (w_rcq s) (w_lerr s) (w_log s).
Definition set_w_cur v s := U (w_cfg s) (w_a s) (w_b s) (w_r s) (w_np s) (w_deq s) (w_rel s) (w_tag s) (w_active s) (w_avail s) v (w_credit s) (w_tags s) (w_seqs s) (w_hc s) (w_dc s) (w_rcq s) (w_lerr s) (w_log s).
Definition set_w_credit v s := U (w_cfg s) (w_a s) (w_b s) (w_r s) (w_np s) (w_deq s) (w_rel s) (w_tag s) (w_active s) (w_avail s) (w_cur s) v (w_tags s) (w_seqs s) (w_hc s) (w_dc s) (w_rcq s) (w_lerr s) (w_log s).
Definition set_w_tags v s := U (w_cfg s) (w_a s) (w_b s) (w_r s) (w_np s) (w_deq s) (w_rel s) (w_tag s) (w_active s) (w_avail s) (w_cur s) (w_credit s) v (w_seqs s) (w_hc s) (w_dc s) (w_rcq s) (w_lerr s) (w_log s).
Definition set_w_seqs v s := U (w_cfg s) (w_a s) (w_b s) (w_r s) (w_np s) (w_deq s) (w_rel s) (w_tag s) (w_active s) (w_avail s) (w_cur s) (w_credit s) (w_tags s) v (w_hc s) (w_dc s) (w_rcq s) (w_lerr s) (w_log s).
Definition set_w_buf h d q s := U (w_cfg s) (w_a s) (w_b s) (w_r s) (w_np s) (w_deq s) (w_rel s) (w_tag s) (w_active s) (w_avail s) (w_cur s) (w_credit s) (w_tags s) (w_seqs s) h d q (w_lerr s) (w_log s).
Definition set_w_lerr v s := U (w_cfg s) (w_a s) (w_b s) (w_r s) (w_np s) (w_deq s) (w_rel s) (w_tag s) (w_active s) (w_avail s) (w_cur s) (w_credit s) (w_tags s) (w_seqs s) (w_hc s) (w_dc s) (w_rcq s) v (w_log s).
Definition note (e : uevent) s := U (w_cfg s) (w_a s) (w_b s) (w_r s) (w_np s) (w_deq s) (w_rel s) (w_tag s) (w_active s) (w_avail s) (w_cur s) (w_credit s) (w_tags s) (w_seqs s) (w_hc s) (w_dc s) (w_rcq s) (w_lerr s) (w_log s ++ [e]).
(** 325-358 / 379-410 *)
Definition udev0 (c : ucfg) : udev :=
  U c AIdle BIdle RIdle [] false false false (fun _ => None) 32 0 0 [] [] 0 0 [] 0 [].

Definition on_tlp (g : tlp -> tlp) (u : tlp_us) : tlp_us :=
  mkTlpUs (g (u_tlp u)) (bar_id u) (bar_aperture u) (cid_enable u) (rid_enable u) (discontinue u) (seq_num u) (error_code u) (request_completed u).
Definition us_credits (u : tlp_us) : Z := get_data_credits (u_tlp u).
(** [self.active_request[tag]] *)
Definition get_active (s : udev) (t : Z) : res (option tlp_us) := if (0 <=? t) && (t <? 256) then Ok (w_active s t) else Err IndexError.

(** 751 / 895 *)
Definition tag_range (o : uopt) (s : udev) : Z := Z.min (if g_ext (w_cfg s) then 256 else 32) (co_tag_count (o_core o)).
(** 750-760 / 894-904 [get_free_tag] *)
Fixpoint free_tag (k : nat) (n tag : Z) (act : Z -> option tlp_us) : option Z :=
  match k with
  | O => None
  | S k => let tag := (tag + 1) mod n in match act tag with None => Some tag | Some _ => free_tag k n tag act end
  end.
(** 762-766 / 906-910 [get_available_tag_count] *)
Definition available (ext : bool) (act : Z -> option tlp_us) : Z :=
  zlen (filter (fun t => match act t with None => true | Some _ => false end) (zrange (if ext then 256 else 32))).

(** core/tlp.py:466-467 *)
Definition is_nonposted (t : tlp) : res bool := ty <- get_fc_type t ;; Ok (match ty with FC_NP => true | _ => false end).

(** 1052-1063 / 1192-1202, 1110-1120 / 1250-1260: tag, table, credits, then [send] of the device (core/device.py:157-163). *)
Definition launch (o : uopt) (u : tlp_us) (s : udev) : res (tlp_us * udev) :=
  '(u, s) <- (if o_client o then Ok (u, s)
              else match free_tag (Z.to_nat (tag_range o s)) (tag_range o s) (w_cur s) (w_active s) with
                   | None => Err TypeError
                   | Some g => Ok (on_tlp (set_tag g) u, set_w_tags (w_tags s ++ [g]) (set_w_cur g s))
                   end) ;;
  r <- get_active s (tag (u_tlp u)) ;;
  _ <- py_assert (match r with None => true | Some _ => false end) ;;
  let act := fset (tag (u_tlp u)) (Some u) (w_active s) in
  let s := set_w_avail (available (g_ext (w_cfg s)) act) (set_w_active act s) in
  let s := set_w_credit (w_credit s + us_credits u) s in
  ok <- tlp_check (tlp_copy (u_tlp u)) ;;
  _ <- py_assert ok ;;
  Ok (u, note (EIssue u (tag_range o s)) s).
(** [self.functions[tlp.requester_id.function].bus_master_enable] *)
Definition bus_master (u : tlp_us) (s : udev) : res bool :=
  match nth_error (g_bme (w_cfg s)) (Z.to_nat (func (requester_id (u_tlp u)))) with Some b => Ok b | None => Err IndexError end.

(** 1069-1073 / 1209-1213 *)
Definition np_put (u : tlp_us) (s : udev) : udev :=
  if np_limit <=? zlen (w_np s) then set_w_a (AFull u) (set_w_deq false s)
  else set_w_a AIdle (set_w_np (w_np s ++ [u]) s).
(** 1025-1083 / 1165-1223 [_run_rq_logic], from the arrival of a frame on. *)
Definition rq_frame (o : uopt) (f : us_frame) (s : udev) : res udev :=
  u <- unpack_us_rq (o_parity o) f ;;
  if discontinue u then Ok s
  else
    let u := if rid_enable u then u
             else on_tlp (fun t => set_requester_id (mkId (g_bus (w_cfg s)) (device (requester_id t)) (func (requester_id t))) t) u in
    let s := note (EAccept u) s in
    np <- is_nonposted (u_tlp u) ;;
    if np then
      if (match w_np s with [] => true | _ => false end) && (w_credit s + us_credits u <=? co_cpld (o_core o)) && (o_client o || (w_avail s >? 0))
      then
        m <- bus_master u s ;;
        if negb m then Ok (note (EDrop u) s)
        else
          _ <- py_assert (tag (u_tlp u) <? (if g_ext (w_cfg s) then co_tag_max (o_core o) else 32)) ;;
          '(u, s) <- launch o u s ;;
          Ok (set_w_a (ASend u) s)
      else Ok (np_put u s)
    else
      m <- bus_master u s ;;
      if negb m then Ok (note (EDrop u) s)
      else
        ok <- tlp_check (tlp_copy (u_tlp u)) ;;
        _ <- py_assert ok ;;
        Ok (set_w_a (ASend u) (note (EIssue u (tag_range o s)) s)).

(** 1090-1121 / 1230-1261: the loop of [_run_rq_np_queue_logic] for request [u]. *)
Definition np_loop (o : uopt) (u : tlp_us) (s : udev) : res udev :=
  if w_credit s + us_credits u >? co_cpld (o_core o) then Ok (set_w_b (BCredit u) (set_w_rel false s))
  else if negb (o_client o) && (w_avail s <=? 0) then Ok (set_w_b (BTag u) (set_w_tag false s))
  else
    m <- bus_master u s ;;
    if negb m then Ok (set_w_b BIdle (note (EDrop u) s))
    else
      '(u, s) <- launch o u s ;;
      Ok (set_w_b (BSend u) s).

(** xilinx/us/tlp.py:41-48 *)
Definition NORMAL_TERMINATION := 0.
Definition POISONED := 1.
Definition BAD_STATUS := 2.
Definition INVALID_LENGTH := 3.
Definition MISMATCH := 4.
Definition INVALID_ADDRESS := 5.
Definition INVALID_TAG := 6.
Definition with_code (e : Z) (u : tlp_us) : tlp_us :=
  mkTlpUs (u_tlp u) (bar_id u) (bar_aperture u) (cid_enable u) (rid_enable u) (discontinue u) (seq_num u) e (request_completed u).
Definition with_done (u : tlp_us) : tlp_us :=
  mkTlpUs (u_tlp u) (bar_id u) (bar_aperture u) (cid_enable u) (rid_enable u) (discontinue u) (seq_num u) (error_code u) 1.
(** [Tlp_us(tlp)] of a [Tlp] *)
Definition us_of (t : tlp) : tlp_us := mkTlpUs (tlp_copy t) 0 0 false false false 0 0 0.
(** 811-862 / 955-1006: the completion for the RC stream, and whether the request has ended. *)
Definition judge (req : option tlp_us) (c : tlp) : res (tlp_us * bool) :=
  let u := us_of c in
  let u := if ep c then with_code POISONED u else u in
  match req with
  | None => Ok (with_code INVALID_TAG u, false)
  | Some r =>
    let r := u_tlp r in
    if negb (id_eqb (requester_id c) (requester_id r)) || negb (attr c =? attr r) || negb (tc c =? tc r)
    then Ok (with_code MISMATCH u, false)
    else if negb (status c =? SC) then Ok (with_done (with_code BAD_STATUS u), true)
    else
      ty <- fmt_type r ;;
      if type_in ty [MEM_READ; MEM_READ_64] then
        let la := address r + get_first_be_offset r + get_be_byte_count r - byte_count c in
        let u := if negb (lower_address c =? Z.land la 0x7f) then with_code INVALID_ADDRESS u
                 else on_tlp (set_lower_address (Z.land la 0xfff)) u in
        let last := byte_count c <=? tlen c * 4 - Z.land (lower_address (u_tlp u)) 3 in
        let u := if last then with_done u else u in
        cty <- fmt_type c ;;
        if type_in cty [CPL; CPL_LOCKED] then Ok (with_done (with_code INVALID_LENGTH u), true) else Ok (u, last)
      else Ok (with_done u, true)
  end.
(** 801-881 / 945-1026: a completion arrives; without a function with its requester id it is discarded. *)
Definition rx_cpl (o : uopt) (c : tlp) (s : udev) : res udev :=
  if existsb (id_eqb (requester_id c)) (g_ids (w_cfg s)) then
    req <- get_active s (tag c) ;;
    '(u, ended) <- judge req c ;;
    let s := if ended then set_w_active (fset (tag c) None (w_active s)) s else s in
    let d := us_credits u in
    let s := set_w_rel true (set_w_credit (Z.max (w_credit s - d) 0) s) in
    let ok := (w_hc s + 1 <=? co_cplh (o_core o)) && (w_dc s + d + 1 <=? co_cpld (o_core o)) in
    let s := if ok then set_w_buf (w_hc s + 1) (w_dc s + (d + 1)) (w_rcq s ++ [u]) s else set_w_lerr (if co_plus (o_core o) then w_lerr s + 1 else 1) s in
    let s := set_w_avail (available (g_ext (w_cfg s)) (w_active s)) s in
    Ok (note (ECpl c u ok) s)
  else Ok s.

(** The segments.  One that cannot run leaves everything as it is. *)
Inductive ulabel :=
| LConfig (c : ucfg)      (** configuration accesses change what the logic looks at *)
| LFrame (f : us_frame)   (** [_run_rq_logic] gets a frame *)
| LSpace                  (** ... finds [rq_np_queue_dequeue] set *)
| LSentA                  (** ... has sent *)
| LNp                     (** [_run_rq_np_queue_logic] gets a request, 1086-1088 / 1226-1228 *)
| LCredit                 (** ... finds [cpld_credit_released] set *)
| LTag                    (** ... finds [tag_release] set *)
| LSentB                  (** ... has sent *)
| LCpl (c : tlp)          (** [upstream_recv] gets a completion *)
| LOut                    (** [_run_rc_logic] gets a completion, 1155-1157 / 1315-1317 *)
| LOutDone                (** ... has sent it, 1159-1160 / 1319-1320 *)
| LTagOut                 (** a tag is shown, 1137-1152 / 1287-1312 *)
| LSeqOut                 (** a sequence number is shown, 1123-1135 / 1263-1285 *)
| LErrOut.                (** the error is shown, 1252-1254 / 1408-1414 *)
Definition ustep (o : uopt) (l : ulabel) (s : udev) : res udev :=
  match l with
  | LConfig c => Ok (set_w_cfg c s)
  | LFrame f => match w_a s with AIdle => rq_frame o f s | _ => Ok s end
  | LSpace => match w_a s with AFull u => if w_deq s then Ok (np_put u s) else Ok s | _ => Ok s end
  | LSentA => match w_a s with ASend u => Ok (set_w_a AIdle (set_w_seqs (w_seqs s ++ [seq_num u]) s)) | _ => Ok s end
  | LNp => match w_b s, w_np s with BIdle, u :: r => np_loop o u (set_w_deq true (set_w_np r s)) | _, _ => Ok s end
  | LCredit => match w_b s with BCredit u => if w_rel s then np_loop o u s else Ok s | _ => Ok s end
  | LTag => match w_b s with BTag u => if w_tag s then np_loop o u s else Ok s | _ => Ok s end
  | LSentB => match w_b s with BSend u => Ok (set_w_b BIdle (set_w_seqs (w_seqs s ++ [seq_num u]) s)) | _ => Ok s end
  | LCpl c => ty <- fmt_type c ;; if type_in ty cpl_types then rx_cpl o c s else Ok s
  | LOut => match w_r s, w_rcq s with
            | RIdle, u :: r => _ <- pack_us_rc u ;; Ok (note (EOut u) (set_w_r (RSend u) (set_w_buf (w_hc s) (w_dc s) r s)))
            | _, _ => Ok s
            end
  | LOutDone => match w_r s with
                | RSend u => Ok (set_w_r RIdle (set_w_buf (Z.max (w_hc s - 1) 0) (Z.max (w_dc s - (us_credits u + 1)) 0) (w_rcq s) s))
                | _ => Ok s
                end
  | LTagOut => match w_tags s with t :: r => Ok (note (ETag t) (set_w_tags r s)) | [] => Ok s end
  | LSeqOut => match w_seqs s with n :: r => Ok (note (ESeq n) (set_w_seqs r s)) | [] => Ok s end
  | LErrOut => if w_lerr s >? 0 then Ok (note EErr (set_w_lerr (if co_plus (o_core o) then w_lerr s - 1 else 0) s)) else Ok s
  end.
Fixpoint urun (o : uopt) (l : list ulabel) (s : udev) : res udev :=
  match l with [] => Ok s | x :: l => s <- ustep o x s ;; urun o l s end.

(** ** Completer requests *)
(** 977-1013 / 1117-1153 [_run_cq_logic].  [cq_source.send] may wait: the coroutine is in one of three places, and requests may arrive while it
    waits.  Clock edges that it does not wait for are lost.  [k_sent]: what was given to the stream. *)
Inductive cqphase := KEdge | KQueued | KNew.
Record cqs := mkCqs { k_phase : cqphase; k_new : list tlp_us; k_np : list tlp_us; k_count : Z; k_sent : list tlp_us }.
Definition cqs0 : cqs := mkCqs KEdge [] [] 0 [].
Inductive cqlabel := KArrive (u : tlp_us) | KClock (np_req : bool) | KStep.
Definition cq_send (u : tlp_us) : res us_frame := pack_us_cq u.
Definition cq_step (l : cqlabel) (s : cqs) : res cqs :=
  match l with
  | KArrive u => Ok (mkCqs (k_phase s) (k_new s ++ [u]) (k_np s) (k_count s) (k_sent s))
  | KClock r =>
    match k_phase s with
    | KEdge => Ok (mkCqs KQueued (k_new s) (k_np s) (if r then Z.min (k_count s + 1) 32 else k_count s) (k_sent s))
    | _ => Ok s
    end
  | KStep =>
    match k_phase s with
    | KEdge => Ok s
    | KQueued =>
      match k_np s with
      | u :: r => if k_count s >? 0 then _ <- cq_send u ;; Ok (mkCqs KQueued (k_new s) r (k_count s - 1) (k_sent s ++ [u]))
                  else Ok (mkCqs KNew (k_new s) (k_np s) (k_count s) (k_sent s))
      | [] => Ok (mkCqs KNew (k_new s) (k_np s) (k_count s) (k_sent s))
      end
    | KNew =>
      match k_new s with
      | [] => Ok (mkCqs KEdge [] (k_np s) (k_count s) (k_sent s))
      | u :: r =>
        ty <- fmt_type (u_tlp u) ;;
        if type_in ty [IO_READ; IO_WRITE; MEM_READ; MEM_READ_64] then
          if k_count s >? 0 then _ <- cq_send u ;; Ok (mkCqs KNew r (k_np s) (k_count s - 1) (k_sent s ++ [u]))
          else Ok (mkCqs KNew r (k_np s ++ [u]) (k_count s) (k_sent s))
        else _ <- cq_send u ;; Ok (mkCqs KNew r (k_np s) (k_count s) (k_sent s ++ [u]))
      end
    end
  end.
Fixpoint cq_run (l : list cqlabel) (s : cqs) : res cqs :=
  match l with [] => Ok s | x :: l => s <- cq_step x s ;; cq_run l s end.

(** ** Routing of what is received *)
(** [int.bit_length()] of a number that is not negative *)
Definition bit_length (x : Z) : Z := if x =? 0 then 0 else Z.log2 x + 1.
Definition bar_mask_of (f : fnc) (i : Z) : Z := f_attr f (fn_bar_mask i).
(** 888 / 1043, 906-910 / 1062-1066; [f0] is [self.functions[0]]. *)
Definition aperture32 (f0 : fnc) (i : Z) : Z := bit_length (Z.land (Z.lnot (bar_mask_of f0 i)) 0xffffffff).
Definition aperture64 (f0 : fnc) (i : Z) : Z :=
  bit_length (Z.land (Z.lnot (Z.lor (bar_mask_of f0 i) (Z.shiftl (bar_mask_of f0 (i + 1)) 32))) 0xffffffffffffffff).
Definition with_bar (i a : Z) (cid : pcie_id) (t : tlp) : tlp_us :=
  mkTlpUs (set_completer_id cid (tlp_copy t)) i a false false false 0 0 0.
(** [f.match_bar(tlp.address, io)] for the functions in turn *)
Fixpoint first_bar (io : bool) (a : Z) (l : list (fnc * Z)) : res (option (fnc * Z)) :=
  match l with
  | [] => Ok None
  | (f, n) :: r => b <- match_bar n a io (f_attr f) ;; match b with Some (i, _) => Ok (Some (f, i)) | None => first_bar io a r end
  end.
Fixpoint by_id (k : nat) (i : pcie_id) (l : list (fnc * Z)) : option nat :=
  match l with [] => None | (f, _) :: r => if id_eqb (f_id f) i then Some k else by_id (S k) i r end.
(** What becomes of a TLP: it goes to a function ([f.upstream_recv]), to [rx_cpl], to the queue of [_run_cq_logic], it is answered or discarded. *)
Inductive uact := VFn (k : nat) | VCpl | VReq (u : tlp_us) | VAnswer (c : tlp) | VDrop.
Definition answer_with (c : tlp) : res uact := ok <- tlp_check c ;; _ <- py_assert ok ;; Ok (VAnswer c).
(** 768-942 / 912-1086 [upstream_recv]; [en] is [config_space_enable]. *)
Definition us_upstream_recv (co : core) (en : bool) (t : tlp) (d : dev) : res (dev * uact) :=
  ty <- fmt_type t ;;
  let unsupported d := a <- answer_with (create_ur_completion t (mkId (d_bus d) 0 0)) ;; Ok (d, a) in
  let request io :=
    b <- first_bar io (address t) (d_fns d) ;;
    match b with
    | Some (f, i) =>
      f0 <- (match d_fns d with (f0, _) :: _ => Ok f0 | [] => Err IndexError end) ;;
      let a := if negb io && zbool (Z.land (f_attr f0 (fn_bar i)) 4) then aperture64 f0 i else aperture32 f0 i in
      let own := mkId (d_bus d) (device (completer_id t)) (func (completer_id t)) in
      let cid := if Bool.eqb io (co_plus co) then own else f_id f in
      Ok (d, VReq (with_bar i a cid t))
    | None => match ty with MEM_WRITE | MEM_WRITE_64 => Ok (d, VDrop) | _ => unsupported d end
    end in
  match ty with
  | CFG_READ_0 | CFG_WRITE_0 =>
    if negb en then a <- answer_with (create_crs_completion t (mkId (d_bus d) 0 0)) ;; Ok (d, a)
    else
      d <- set_bus (bus (completer_id t)) d ;;
      match by_id 0 (completer_id t) (d_fns d) with
      | Some k => Ok (d, VFn k)
      | None => unsupported d
      end
  | CFG_READ_1 | CFG_WRITE_1 => unsupported d
  | CPL | CPL_DATA | CPL_LOCKED | CPL_LOCKED_DATA =>
    match by_id 0 (requester_id t) (d_fns d) with Some _ => Ok (d, VCpl) | None => Ok (d, VDrop) end
  | IO_READ | IO_WRITE => request true
  | MEM_READ | MEM_READ_64 | MEM_WRITE | MEM_WRITE_64 => request false
  | _ => Err PyException
  end.

(** 1015-1023 / 1155-1163 [_run_cc_logic]: what is sent for a frame of the CC stream. *)
Definition cc_frame (parity : bool) (bus_num : Z) (f : us_frame) : res (option tlp) :=
  u <- unpack_us_cc parity f ;;
  let u := if cid_enable u then u
           else on_tlp (fun t => set_completer_id (mkId bus_num (device (completer_id t)) (func (completer_id t))) t) u in
  if discontinue u then Ok None
  else
    let t := tlp_copy (u_tlp u) in
    ok <- tlp_check t ;; _ <- py_assert ok ;; Ok (Some t).
