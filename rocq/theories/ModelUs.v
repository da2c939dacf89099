(** xilinx/us/tlp.py: [Tlp_us] and the descriptors of the CQ, CC, RQ and RC interfaces. *)
From Verif Require Import Base ModelUtils ModelTlp ModelRegion ModelFrames.

(** xilinx/us/tlp.py:105-123.  [request_completed] is used as a truth value but also holds integers. *)
Record tlp_us := mkTlpUs {
  u_tlp : tlp; bar_id : Z; bar_aperture : Z; cid_enable : bool; rid_enable : bool; discontinue : bool;
  seq_num : Z; error_code : Z; request_completed : Z }.
Definition tlp_us0 : tlp_us := mkTlpUs tlp0 0 0 false false false 0 0 0.
(** xilinx/us/tlp.py:106-123, [Tlp_us(tlp)]: line 123 compares where an assignment is meant. *)
Definition tlp_us_copy (u : tlp_us) : tlp_us :=
  mkTlpUs (tlp_copy (u_tlp u)) (bar_id u) (bar_aperture u) (cid_enable u) (rid_enable u) (discontinue u) (seq_num u) (error_code u) 0.

(** xilinx/us/tlp.py:65-84 [tlp_type_to_req_type] *)
Definition req_type_of (ty : tlp_type) : res Z :=
  match ty with
  | MEM_READ | MEM_READ_64 => Ok 0
  | MEM_READ_LOCKED | MEM_READ_LOCKED_64 => Ok 7
  | MEM_WRITE | MEM_WRITE_64 => Ok 1
  | IO_READ => Ok 2
  | IO_WRITE => Ok 3
  | CFG_READ_0 => Ok 8
  | CFG_WRITE_0 => Ok 10
  | CFG_READ_1 => Ok 9
  | CFG_WRITE_1 => Ok 11
  | FETCH_ADD | FETCH_ADD_64 => Ok 4
  | SWAP | SWAP_64 => Ok 5
  | CAS | CAS_64 => Ok 6
  | _ => Err KeyError
  end.
(** xilinx/us/tlp.py:87-100 [req_type_to_tlp_type] *)
Definition type_of_req (r : Z) : res tlp_type :=
  if r =? 0 then Ok MEM_READ else if r =? 1 then Ok MEM_WRITE else if r =? 2 then Ok IO_READ else if r =? 3 then Ok IO_WRITE
  else if r =? 4 then Ok FETCH_ADD else if r =? 5 then Ok SWAP else if r =? 6 then Ok CAS else if r =? 7 then Ok MEM_READ_LOCKED
  else if r =? 8 then Ok CFG_READ_0 else if r =? 9 then Ok CFG_READ_1 else if r =? 10 then Ok CFG_WRITE_0 else if r =? 11 then Ok CFG_WRITE_1
  else Err KeyError.
(** [for k in range(0, len(data), 4): l.extend(struct.unpack_from('<L', data, k))] *)
Fixpoint to_dwords (d : list Z) : res (list Z) :=
  match d with
  | [] => Ok []
  | a :: b :: c :: e :: r => l <- to_dwords r ;; Ok (from_le [a; b; c; e] :: l)
  | _ => Err StructError
  end.
(** [for dw in l: data.extend(struct.pack('<L', dw))] *)
Fixpoint of_dwords (l : list Z) : res (list Z) :=
  match l with
  | [] => Ok []
  | d :: r => b <- struct_pack_le 4 d ;; x <- of_dwords r ;; Ok (b ++ x)
  end.
(** [l[i]] *)
Definition idx (l : list Z) (i : nat) : res Z := match nth_error l i with Some v => Ok v | None => Err IndexError end.
(** xilinx/us/tlp.py:161-166, 213-218, 443-448, 500-505 *)
Definition payload_be (n first last : Z) : list Z :=
  (if n >=? 1 then [first] else []) ++ (if n >? 2 then repeat 0xf (Z.to_nat (n - 2)) else []) ++ (if n >? 1 then [last] else []).

Definition atomic_types : list tlp_type := [FETCH_ADD; FETCH_ADD_64; SWAP; SWAP_64; CAS; CAS_64].
Definition us_mem_types : list tlp_type :=
  [MEM_READ; MEM_READ_64; MEM_READ_LOCKED; MEM_READ_LOCKED_64; MEM_WRITE; MEM_WRITE_64; IO_READ; IO_WRITE] ++ atomic_types.
Definition us_cpl_types : list tlp_type := [CPL; CPL_DATA; CPL_LOCKED; CPL_LOCKED_DATA].

(** xilinx/us/tlp.py:125-174 *)
Definition pack_us_cq (u : tlp_us) : res us_frame :=
  let t := u_tlp u in
  ty <- fmt_type t ;;
  if type_in ty us_mem_types then
    let dw0 := Z.lor (Z.land (at_ t) 3) (Z.land (address t) 0xfffffffc) in
    let dw1 := Z.shiftr (Z.land (address t) 0xffffffff00000000) 32 in
    rq <- req_type_of ty ;;
    let dw2 := Z.lor (Z.lor (Z.land (tlen t) 0x7ff) (Z.shiftl rq 11)) (Z.shiftl (id_int (requester_id t)) 16) in
    let dw3 := Z.land (tag t) 0xff in
    let dw3 := Z.lor dw3 (Z.shiftl (Z.land (func (completer_id t)) 0xff) 8) in
    let dw3 := Z.lor dw3 (Z.shiftl (Z.land (bar_id u) 7) 16) in
    let dw3 := Z.lor dw3 (Z.shiftl (Z.land (bar_aperture u) 0x3f) 19) in
    let dw3 := Z.lor dw3 (Z.shiftl (Z.land (tc t) 7) 25) in
    let dw3 := Z.lor dw3 (Z.shiftl (Z.land (attr t) 7) 28) in
    pl <- to_dwords (data t) ;;
    let be := repeat 0 4 ++ payload_be (get_payload_size_dw t) (first_be t) (last_be t) in
    Ok (us_update_parity (mkUs ([dw0; dw1; dw2; dw3] ++ pl) be [] (first_be t) (last_be t) (discontinue u) 0))
  else Err PyException.
(** xilinx/us/tlp.py:192-196, 375-379: an address above 4 GiB selects the four DWORD header. *)
Definition widen (t : tlp) : tlp :=
  if address t >? 0xffffffff then if fmt t =? 0 then set_fmt 1 t else if fmt t =? 2 then set_fmt 3 t else t else t.
(** xilinx/us/tlp.py:176-227 *)
Definition unpack_us_cq (check : bool) (p : us_frame) : res tlp_us :=
  d2 <- idx (us_data p) 2 ;;
  let rq := Z.land (Z.shiftr d2 11) 0xf in
  ty <- type_of_req rq ;;
  let t := set_fmt_type ty tlp0 in
  let t := set_tlen (Z.land d2 0x7ff) t in
  let t := set_requester_id (id_from_int (Z.shiftr d2 16)) t in
  d3 <- idx (us_data p) 3 ;;
  let t := set_tag (Z.land d3 0xff) t in
  let t := set_tc (Z.land (Z.shiftr d3 25) 7) t in
  let t := set_attr (Z.land (Z.shiftr d3 28) 7) t in
  if Z.land rq 8 =? 0 then
    d0 <- idx (us_data p) 0 ;;
    at' <- tlp_at (Z.land d0 3) ;;
    let t := set_at_ at' t in
    d1 <- idx (us_data p) 1 ;;
    let t := set_address (Z.lor (Z.shiftl d1 32) (Z.land d0 0xfffffffc)) t in
    let t := widen t in
    cid <- pcie_id_new 0 0 (Z.land (Z.shiftr d3 8) 0xff) ;;
    let t := set_completer_id cid t in
    let t := set_last_be (us_last_be p) (set_first_be (us_first_be p) t) in
    pl <- of_dwords (skipn 4 (us_data p)) ;;
    let t := set_data pl t in
    _ <- py_assert (zlist_eqb (repeat 0 4 ++ payload_be (get_payload_size_dw t) (first_be t) (last_be t)) (us_byte_en p)) ;;
    _ <- (if check then py_assert (us_check_parity p) else Ok tt) ;;
    Ok (mkTlpUs t (Z.land (Z.shiftr d3 16) 7) (Z.land (Z.shiftr d3 19) 0x3f) false false (us_disc p) 0 0 0)
  else Ok (mkTlpUs t 0 0 false false false 0 0 0).

(** xilinx/us/tlp.py:229-264 *)
Definition pack_us_cc (u : tlp_us) : res us_frame :=
  let t := u_tlp u in
  ty <- fmt_type t ;;
  if type_in ty us_cpl_types then
    let dw0 := Z.land (lower_address t) 0x7f in
    let dw0 := Z.lor dw0 (Z.shiftl (Z.land (at_ t) 3) 8) in
    let dw0 := Z.lor dw0 (Z.shiftl (Z.land (byte_count t) 0x1fff) 16) in
    let dw0 := if type_in ty [CPL_LOCKED; CPL_LOCKED_DATA] then Z.lor dw0 (Z.shiftl 1 29) else dw0 in
    let dw1 := Z.land (tlen t) 0x7ff in
    let dw1 := Z.lor dw1 (Z.shiftl (Z.land (status t) 7) 11) in
    let dw1 := Z.lor dw1 (Z.shiftl (Z.b2z (ep t)) 14) in
    let dw1 := Z.lor dw1 (Z.shiftl (id_int (requester_id t)) 16) in
    let dw2 := Z.land (tag t) 0xff in
    let dw2 := Z.lor dw2 (Z.shiftl (id_int (completer_id t)) 8) in
    let dw2 := Z.lor dw2 (Z.shiftl (Z.b2z (cid_enable u)) 24) in
    let dw2 := Z.lor dw2 (Z.shiftl (Z.land (tc t) 7) 25) in
    let dw2 := Z.lor dw2 (Z.shiftl (Z.land (attr t) 7) 28) in
    pl <- to_dwords (data t) ;;
    Ok (us_update_parity (mkUs ([dw0; dw1; dw2] ++ pl) [] [] 0 0 (discontinue u) 0))
  else Err PyException.
(** xilinx/us/tlp.py:266-300 *)
Definition unpack_us_cc (check : bool) (p : us_frame) : res tlp_us :=
  let t := set_fmt_type CPL tlp0 in
  d0 <- idx (us_data p) 0 ;;
  let t := set_lower_address (Z.land d0 0x7f) t in
  at' <- tlp_at (Z.land (Z.shiftr d0 8) 3) ;;
  let t := set_at_ at' t in
  let t := set_byte_count (Z.land (Z.shiftr d0 16) 0x1fff) t in
  let t := if zbool (Z.land d0 (Z.shiftl 1 29)) then set_fmt_type CPL_LOCKED t else t in
  d1 <- idx (us_data p) 1 ;;
  let t := set_tlen (Z.land d1 0x7ff) t in
  let t := if tlen t >? 0 then set_fmt 2 t else t in
  st <- cpl_status (Z.land (Z.shiftr d1 11) 7) ;;
  let t := set_status st t in
  let t := set_ep (zbool (Z.land d1 (Z.shiftl 1 14))) t in
  let t := set_requester_id (id_from_int (Z.shiftr d1 16)) t in
  d2 <- idx (us_data p) 2 ;;
  let t := set_completer_id (id_from_int (Z.shiftr d2 8)) t in
  let t := set_tag (Z.land d2 0xff) t in
  let t := set_tc (Z.land (Z.shiftr d2 25) 7) t in
  let t := set_attr (Z.land (Z.shiftr d2 28) 7) t in
  pl <- (if tlen t >? 0 then of_dwords (slice 3 (3 + tlen t) (us_data p)) else Ok []) ;;
  let t := set_data pl t in
  _ <- (if check then py_assert (us_check_parity p) else Ok tt) ;;
  Ok (mkTlpUs t 0 0 (zbool (Z.land d2 (Z.shiftl 1 24))) false (us_disc p) 0 0 0).

Definition us_rq_types : list tlp_type := cfg_types ++ us_mem_types.
(** xilinx/us/tlp.py:302-351 *)
Definition pack_us_rq (u : tlp_us) : res us_frame :=
  let t := u_tlp u in
  ty <- fmt_type t ;;
  if type_in ty us_rq_types then
    let '(dw0, dw1) :=
      if type_in ty cfg_types then (Z.land (address t) 0xffc, 0)
      else (Z.lor (Z.land (at_ t) 3) (Z.land (address t) 0xfffffffc), Z.shiftr (Z.land (address t) 0xffffffff00000000) 32) in
    rq <- req_type_of ty ;;
    let dw2 := Z.land (tlen t) 0x7ff in
    let dw2 := Z.lor dw2 (Z.shiftl (Z.land rq 0xf) 11) in
    let dw2 := Z.lor dw2 (Z.shiftl (Z.b2z (ep t)) 15) in
    let dw2 := Z.lor dw2 (Z.shiftl (id_int (requester_id t)) 16) in
    let dw3 := Z.land (tag t) 0xff in
    let dw3 := Z.lor dw3 (Z.shiftl (id_int (completer_id t)) 8) in
    let dw3 := Z.lor dw3 (Z.shiftl (Z.b2z (rid_enable u)) 24) in
    let dw3 := Z.lor dw3 (Z.shiftl (Z.land (tc t) 7) 25) in
    let dw3 := Z.lor dw3 (Z.shiftl (Z.land (attr t) 7) 28) in
    pl <- to_dwords (data t) ;;
    Ok (us_update_parity (mkUs ([dw0; dw1; dw2; dw3] ++ pl) [] [] (first_be t) (last_be t) (discontinue u) (seq_num u)))
  else Err PyException.
(** xilinx/us/tlp.py:353-400 *)
Definition unpack_us_rq (check : bool) (p : us_frame) : res tlp_us :=
  d2 <- idx (us_data p) 2 ;;
  let rq := Z.land (Z.shiftr d2 11) 0xf in
  ty <- type_of_req rq ;;
  let t := set_fmt_type ty tlp0 in
  let t := set_tlen (Z.land d2 0x7ff) t in
  let t := set_ep (zbool (Z.land d2 (Z.shiftl 1 15))) t in
  let t := set_requester_id (id_from_int (Z.shiftr d2 16)) t in
  d3 <- idx (us_data p) 3 ;;
  let t := set_tag (Z.land d3 0xff) t in
  let t := set_tc (Z.land (Z.shiftr d3 25) 7) t in
  let t := set_attr (Z.land (Z.shiftr d3 28) 7) t in
  if rq <? 12 then
    d0 <- idx (us_data p) 0 ;;
    t <- (if rq <? 8 then
            at' <- tlp_at (Z.land d0 3) ;;
            let t := set_at_ at' t in
            d1 <- idx (us_data p) 1 ;;
            Ok (widen (set_address (Z.lor (Z.shiftl d1 32) (Z.land d0 0xfffffffc)) t))
          else Ok (set_address (Z.land d0 0xffc) t)) ;;
    let t := set_completer_id (id_from_int (Z.shiftr d3 8)) t in
    let t := set_last_be (us_last_be p) (set_first_be (us_first_be p) t) in
    pl <- of_dwords (skipn 4 (us_data p)) ;;
    let t := set_data pl t in
    _ <- (if check then py_assert (us_check_parity p) else Ok tt) ;;
    Ok (mkTlpUs t 0 0 false (zbool (Z.land d3 (Z.shiftl 1 24))) (us_disc p) (us_seq p) 0 0)
  else Err PyException.

(** xilinx/us/tlp.py:431-448, 488-505: the byte enables of a completion *)
Definition rc_byte_en (t : tlp) : list Z :=
  let first := Z.land (Z.shiftl 0xf (Z.land (lower_address t) 3)) 0xf in
  let last := if byte_count t + Z.land (lower_address t) 3 >? tlen t * 4 then 0xf
              else Z.shiftr 0xf (Z.land (4 - byte_count t - lower_address t) 3) in
  let n := get_payload_size_dw t in
  let '(first, last) := if n =? 1 then (Z.land first last, 0) else (first, last) in
  repeat 0 3 ++ payload_be n first last.
(** xilinx/us/tlp.py:402-456 *)
Definition pack_us_rc (u : tlp_us) : res us_frame :=
  let t := u_tlp u in
  ty <- fmt_type t ;;
  if type_in ty us_cpl_types then
    let dw0 := Z.land (lower_address t) 0xfff in
    let dw0 := Z.lor dw0 (Z.shiftl (Z.land (error_code u) 0xf) 12) in
    let dw0 := Z.lor dw0 (Z.shiftl (Z.land (byte_count t) 0x1fff) 16) in
    let dw0 := if type_in ty [CPL_LOCKED; CPL_LOCKED_DATA] then Z.lor dw0 (Z.shiftl 1 29) else dw0 in
    let dw0 := Z.lor dw0 (Z.shiftl (Z.b2z (zbool (request_completed u))) 30) in
    let dw1 := Z.land (tlen t) 0x7ff in
    let dw1 := Z.lor dw1 (Z.shiftl (Z.land (status t) 7) 11) in
    let dw1 := Z.lor dw1 (Z.shiftl (Z.b2z (ep t)) 14) in
    let dw1 := Z.lor dw1 (Z.shiftl (id_int (requester_id t)) 16) in
    let dw2 := Z.land (tag t) 0xff in
    let dw2 := Z.lor dw2 (Z.shiftl (id_int (completer_id t)) 8) in
    let dw2 := Z.lor dw2 (Z.shiftl (Z.land (tc t) 7) 25) in
    let dw2 := Z.lor dw2 (Z.shiftl (Z.land (attr t) 7) 28) in
    pl <- to_dwords (data t) ;;
    Ok (us_update_parity (mkUs ([dw0; dw1; dw2] ++ pl) (rc_byte_en t) [] 0 0 (discontinue u) 0))
  else Err PyException.
(** xilinx/us/tlp.py:458-515 *)
Definition unpack_us_rc (check : bool) (p : us_frame) : res tlp_us :=
  let t := set_fmt_type CPL tlp0 in
  d0 <- idx (us_data p) 0 ;;
  let t := set_lower_address (Z.land d0 0xfff) t in
  let t := set_byte_count (Z.land (Z.shiftr d0 16) 0x1fff) t in
  let t := if zbool (Z.land d0 (Z.shiftl 1 29)) then set_fmt_type CPL_LOCKED t else t in
  d1 <- idx (us_data p) 1 ;;
  let t := set_tlen (Z.land d1 0x7ff) t in
  let t := if tlen t >? 0 then set_fmt 2 t else t in
  st <- cpl_status (Z.land (Z.shiftr d1 11) 7) ;;
  let t := set_status st t in
  let t := set_ep (zbool (Z.land d1 (Z.shiftl 1 14))) t in
  let t := set_requester_id (id_from_int (Z.shiftr d1 16)) t in
  d2 <- idx (us_data p) 2 ;;
  let t := set_completer_id (id_from_int (Z.shiftr d2 8)) t in
  let t := set_tag (Z.land d2 0xff) t in
  let t := set_tc (Z.land (Z.shiftr d2 25) 7) t in
  let t := set_attr (Z.land (Z.shiftr d2 28) 7) t in
  pl <- (if tlen t >? 0 then of_dwords (slice 3 (3 + tlen t) (us_data p)) else Ok []) ;;
  let t := set_data pl t in
  _ <- py_assert (zlist_eqb (rc_byte_en t) (us_byte_en p)) ;;
  _ <- (if check then py_assert (us_check_parity p) else Ok tt) ;;
  Ok (mkTlpUs t 0 0 false false (us_disc p) 0 (Z.land (Z.shiftr d0 12) 0xf) (Z.land d0 (Z.shiftl 1 30))).
