(** core/tlp.py: TLP types, byte enable helpers, validation, wire format.
    Not modelled here: [release_fc_cb] and [ingress_port] (see ModelFc.v, ModelRoute*.v), [__repr__]
    and the printing of [check]. *)
From Verif Require Import Base ModelUtils.

(** core/dllp.py:59-62 [FcType] *)
Inductive fc_type := FC_P | FC_NP | FC_CPL.
Definition fc_eqb (a b : fc_type) : bool :=
  match a, b with FC_P, FC_P | FC_NP, FC_NP | FC_CPL, FC_CPL => true | _, _ => false end.

(** core/tlp.py:42-82 [TlpType] *)
Inductive tlp_type :=
| MEM_READ
| MEM_READ_64
| MEM_READ_LOCKED
| MEM_READ_LOCKED_64
| MEM_WRITE
| MEM_WRITE_64
| IO_READ
| IO_WRITE
| CFG_READ_0
| CFG_WRITE_0
| CFG_READ_1
| CFG_WRITE_1
| MSG_TO_RC
| MSG_ADDR
| MSG_ID
| MSG_BCAST
| MSG_LOCAL
| MSG_GATHER
| MSG_DATA_TO_RC
| MSG_DATA_ADDR
| MSG_DATA_ID
| MSG_DATA_BCAST
| MSG_DATA_LOCAL
| MSG_DATA_GATHER
| CPL
| CPL_DATA
| CPL_LOCKED
| CPL_LOCKED_DATA
| FETCH_ADD
| FETCH_ADD_64
| SWAP
| SWAP_64
| CAS
| CAS_64
| PREFIX_MRIOV
| PREFIX_VENDOR_L0
| PREFIX_VENDOR_L1
| PREFIX_EXT_TPH
| PREFIX_VENDOR_E0
| PREFIX_VENDOR_E1
.

(** core/tlp.py:32-82, the (fmt, type) value of each member; fmt numbers per [TlpFmt] 33-38. *)
Definition type_code (t : tlp_type) : Z * Z :=
  match t with
  | MEM_READ => (0, 0)
  | MEM_READ_64 => (1, 0)
  | MEM_READ_LOCKED => (0, 1)
  | MEM_READ_LOCKED_64 => (1, 1)
  | MEM_WRITE => (2, 0)
  | MEM_WRITE_64 => (3, 0)
  | IO_READ => (0, 2)
  | IO_WRITE => (2, 2)
  | CFG_READ_0 => (0, 4)
  | CFG_WRITE_0 => (2, 4)
  | CFG_READ_1 => (0, 5)
  | CFG_WRITE_1 => (2, 5)
  | MSG_TO_RC => (1, 16)
  | MSG_ADDR => (1, 17)
  | MSG_ID => (1, 18)
  | MSG_BCAST => (1, 19)
  | MSG_LOCAL => (1, 20)
  | MSG_GATHER => (1, 21)
  | MSG_DATA_TO_RC => (3, 16)
  | MSG_DATA_ADDR => (3, 17)
  | MSG_DATA_ID => (3, 18)
  | MSG_DATA_BCAST => (3, 19)
  | MSG_DATA_LOCAL => (3, 20)
  | MSG_DATA_GATHER => (3, 21)
  | CPL => (0, 10)
  | CPL_DATA => (2, 10)
  | CPL_LOCKED => (0, 11)
  | CPL_LOCKED_DATA => (2, 11)
  | FETCH_ADD => (2, 12)
  | FETCH_ADD_64 => (3, 12)
  | SWAP => (2, 13)
  | SWAP_64 => (3, 13)
  | CAS => (2, 14)
  | CAS_64 => (3, 14)
  | PREFIX_MRIOV => (4, 0)
  | PREFIX_VENDOR_L0 => (4, 14)
  | PREFIX_VENDOR_L1 => (4, 15)
  | PREFIX_EXT_TPH => (4, 16)
  | PREFIX_VENDOR_E0 => (4, 30)
  | PREFIX_VENDOR_E1 => (4, 31)
  end.

Definition all_types : list tlp_type := [
  MEM_READ; MEM_READ_64; MEM_READ_LOCKED; MEM_READ_LOCKED_64; MEM_WRITE; MEM_WRITE_64; IO_READ; IO_WRITE; CFG_READ_0; CFG_WRITE_0; CFG_READ_1; CFG_WRITE_1; MSG_TO_RC; MSG_ADDR; MSG_ID; MSG_BCAST; MSG_LOCAL; MSG_GATHER; MSG_DATA_TO_RC; MSG_DATA_ADDR; MSG_DATA_ID; MSG_DATA_BCAST; MSG_DATA_LOCAL; MSG_DATA_GATHER; CPL; CPL_DATA; CPL_LOCKED; CPL_LOCKED_DATA; FETCH_ADD; FETCH_ADD_64; SWAP; SWAP_64; CAS; CAS_64; PREFIX_MRIOV; PREFIX_VENDOR_L0; PREFIX_VENDOR_L1; PREFIX_EXT_TPH; PREFIX_VENDOR_E0; PREFIX_VENDOR_E1].

Definition type_eqb (a b : tlp_type) : bool :=
  (fst (type_code a) =? fst (type_code b)) && (snd (type_code a) =? snd (type_code b)).

(** Python [x in {..}] *)
Definition type_in (t : tlp_type) (l : list tlp_type) : bool := existsb (type_eqb t) l.

(** core/tlp.py:241-243 [TlpType((fmt, type))]: [ValueError] if there is no such member. *)
Definition fmt_type_of (fmt ty : Z) : res tlp_type :=
  match find (fun t => (fst (type_code t) =? fmt) && (snd (type_code t) =? ty)) all_types with
  | Some t => Ok t
  | None => Err ValueError
  end.

(** core/tlp.py:150-185 [tlp_type_fc_type_mapping]; [KeyError] for prefixes. *)
Definition type_fc (t : tlp_type) : res fc_type :=
  match t with
  | MEM_READ => Ok FC_NP
  | MEM_READ_64 => Ok FC_NP
  | MEM_READ_LOCKED => Ok FC_NP
  | MEM_READ_LOCKED_64 => Ok FC_NP
  | MEM_WRITE => Ok FC_P
  | MEM_WRITE_64 => Ok FC_P
  | IO_READ => Ok FC_NP
  | IO_WRITE => Ok FC_NP
  | CFG_READ_0 => Ok FC_NP
  | CFG_WRITE_0 => Ok FC_NP
  | CFG_READ_1 => Ok FC_NP
  | CFG_WRITE_1 => Ok FC_NP
  | MSG_TO_RC => Ok FC_P
  | MSG_ADDR => Ok FC_P
  | MSG_ID => Ok FC_P
  | MSG_BCAST => Ok FC_P
  | MSG_LOCAL => Ok FC_P
  | MSG_GATHER => Ok FC_P
  | MSG_DATA_TO_RC => Ok FC_P
  | MSG_DATA_ADDR => Ok FC_P
  | MSG_DATA_ID => Ok FC_P
  | MSG_DATA_BCAST => Ok FC_P
  | MSG_DATA_LOCAL => Ok FC_P
  | MSG_DATA_GATHER => Ok FC_P
  | CPL => Ok FC_CPL
  | CPL_DATA => Ok FC_CPL
  | CPL_LOCKED => Ok FC_CPL
  | CPL_LOCKED_DATA => Ok FC_CPL
  | FETCH_ADD => Ok FC_NP
  | FETCH_ADD_64 => Ok FC_NP
  | SWAP => Ok FC_NP
  | SWAP_64 => Ok FC_NP
  | CAS => Ok FC_NP
  | CAS_64 => Ok FC_NP
  | PREFIX_MRIOV => Err KeyError
  | PREFIX_VENDOR_L0 => Err KeyError
  | PREFIX_VENDOR_L1 => Err KeyError
  | PREFIX_EXT_TPH => Err KeyError
  | PREFIX_VENDOR_E0 => Err KeyError
  | PREFIX_VENDOR_E1 => Err KeyError
  end.

(** core/tlp.py:116-147 [TlpAt(v)], [CplStatus(v)]: [ValueError] for undefined values.
    [TlpTc] and [TlpAttr] accept every value they are applied to (3 bits). *)
Definition tlp_at (v : Z) : res Z := if (0 <=? v) && (v <=? 2) then Ok v else Err ValueError.
Definition cpl_status (v : Z) : res Z :=
  if (v =? 0) || (v =? 1) || (v =? 2) || (v =? 4) then Ok v else Err ValueError.
Definition SC := 0. Definition UR := 1. Definition CRS := 2. Definition CA := 4.

(** core/tlp.py:188-212, the attributes of [Tlp]. *)
Set Primitive Projections.
Record tlp := mkTlp {
  fmt : Z;
  type_ : Z;
  tc : Z;
  ln : bool;
  th : bool;
  td : bool;
  ep : bool;
  attr : Z;
  at_ : Z;
  tlen : Z;
  completer_id : pcie_id;
  status : Z;
  bcm : bool;
  byte_count : Z;
  requester_id : pcie_id;
  tag : Z;
  first_be : Z;
  last_be : Z;
  lower_address : Z;
  address : Z;
  ph : Z;
  data : list Z;
  seq : Z
}.
Unset Primitive Projections.

(** Attribute assignment. [completer_id]/[requester_id] (core/tlp.py:252-266) re-validate a value that
    is already a [PcieId], which changes nothing. *)
Definition set_fmt (v : Z) (t : tlp) : tlp := mkTlp v (type_ t) (tc t) (ln t) (th t) (td t) (ep t) (attr t) (at_ t) (tlen t) (completer_id t) (status t) (bcm t) (byte_count t) (requester_id t) (tag t) (first_be t) (last_be t) (lower_address t) (address t) (ph t) (data t) (seq t).
Definition set_type_ (v : Z) (t : tlp) : tlp := mkTlp (fmt t) v (tc t) (ln t) (th t) (td t) (ep t) (attr t) (at_ t) (tlen t) (completer_id t) (status t) (bcm t) (byte_count t) (requester_id t) (tag t) (first_be t) (last_be t) (lower_address t) (address t) (ph t) (data t) (seq t).
Definition set_tc (v : Z) (t : tlp) : tlp := mkTlp (fmt t) (type_ t) v (ln t) (th t) (td t) (ep t) (attr t) (at_ t) (tlen t) (completer_id t) (status t) (bcm t) (byte_count t) (requester_id t) (tag t) (first_be t) (last_be t) (lower_address t) (address t) (ph t) (data t) (seq t).
Definition set_ln (v : bool) (t : tlp) : tlp := mkTlp (fmt t) (type_ t) (tc t) v (th t) (td t) (ep t) (attr t) (at_ t) (tlen t) (completer_id t) (status t) (bcm t) (byte_count t) (requester_id t) (tag t) (first_be t) (last_be t) (lower_address t) (address t) (ph t) (data t) (seq t).
Definition set_th (v : bool) (t : tlp) : tlp := mkTlp (fmt t) (type_ t) (tc t) (ln t) v (td t) (ep t) (attr t) (at_ t) (tlen t) (completer_id t) (status t) (bcm t) (byte_count t) (requester_id t) (tag t) (first_be t) (last_be t) (lower_address t) (address t) (ph t) (data t) (seq t).
Definition set_td (v : bool) (t : tlp) : tlp := mkTlp (fmt t) (type_ t) (tc t) (ln t) (th t) v (ep t) (attr t) (at_ t) (tlen t) (completer_id t) (status t) (bcm t) (byte_count t) (requester_id t) (tag t) (first_be t) (last_be t) (lower_address t) (address t) (ph t) (data t) (seq t).
Definition set_ep (v : bool) (t : tlp) : tlp := mkTlp (fmt t) (type_ t) (tc t) (ln t) (th t) (td t) v (attr t) (at_ t) (tlen t) (completer_id t) (status t) (bcm t) (byte_count t) (requester_id t) (tag t) (first_be t) (last_be t) (lower_address t) (address t) (ph t) (data t) (seq t).
Definition set_attr (v : Z) (t : tlp) : tlp := mkTlp (fmt t) (type_ t) (tc t) (ln t) (th t) (td t) (ep t) v (at_ t) (tlen t) (completer_id t) (status t) (bcm t) (byte_count t) (requester_id t) (tag t) (first_be t) (last_be t) (lower_address t) (address t) (ph t) (data t) (seq t).
Definition set_at_ (v : Z) (t : tlp) : tlp := mkTlp (fmt t) (type_ t) (tc t) (ln t) (th t) (td t) (ep t) (attr t) v (tlen t) (completer_id t) (status t) (bcm t) (byte_count t) (requester_id t) (tag t) (first_be t) (last_be t) (lower_address t) (address t) (ph t) (data t) (seq t).
Definition set_tlen (v : Z) (t : tlp) : tlp := mkTlp (fmt t) (type_ t) (tc t) (ln t) (th t) (td t) (ep t) (attr t) (at_ t) v (completer_id t) (status t) (bcm t) (byte_count t) (requester_id t) (tag t) (first_be t) (last_be t) (lower_address t) (address t) (ph t) (data t) (seq t).
Definition set_completer_id (v : pcie_id) (t : tlp) : tlp := mkTlp (fmt t) (type_ t) (tc t) (ln t) (th t) (td t) (ep t) (attr t) (at_ t) (tlen t) v (status t) (bcm t) (byte_count t) (requester_id t) (tag t) (first_be t) (last_be t) (lower_address t) (address t) (ph t) (data t) (seq t).
Definition set_status (v : Z) (t : tlp) : tlp := mkTlp (fmt t) (type_ t) (tc t) (ln t) (th t) (td t) (ep t) (attr t) (at_ t) (tlen t) (completer_id t) v (bcm t) (byte_count t) (requester_id t) (tag t) (first_be t) (last_be t) (lower_address t) (address t) (ph t) (data t) (seq t).
Definition set_bcm (v : bool) (t : tlp) : tlp := mkTlp (fmt t) (type_ t) (tc t) (ln t) (th t) (td t) (ep t) (attr t) (at_ t) (tlen t) (completer_id t) (status t) v (byte_count t) (requester_id t) (tag t) (first_be t) (last_be t) (lower_address t) (address t) (ph t) (data t) (seq t).
Definition set_byte_count (v : Z) (t : tlp) : tlp := mkTlp (fmt t) (type_ t) (tc t) (ln t) (th t) (td t) (ep t) (attr t) (at_ t) (tlen t) (completer_id t) (status t) (bcm t) v (requester_id t) (tag t) (first_be t) (last_be t) (lower_address t) (address t) (ph t) (data t) (seq t).
Definition set_requester_id (v : pcie_id) (t : tlp) : tlp := mkTlp (fmt t) (type_ t) (tc t) (ln t) (th t) (td t) (ep t) (attr t) (at_ t) (tlen t) (completer_id t) (status t) (bcm t) (byte_count t) v (tag t) (first_be t) (last_be t) (lower_address t) (address t) (ph t) (data t) (seq t).
Definition set_tag (v : Z) (t : tlp) : tlp := mkTlp (fmt t) (type_ t) (tc t) (ln t) (th t) (td t) (ep t) (attr t) (at_ t) (tlen t) (completer_id t) (status t) (bcm t) (byte_count t) (requester_id t) v (first_be t) (last_be t) (lower_address t) (address t) (ph t) (data t) (seq t).
Definition set_first_be (v : Z) (t : tlp) : tlp := mkTlp (fmt t) (type_ t) (tc t) (ln t) (th t) (td t) (ep t) (attr t) (at_ t) (tlen t) (completer_id t) (status t) (bcm t) (byte_count t) (requester_id t) (tag t) v (last_be t) (lower_address t) (address t) (ph t) (data t) (seq t).
Definition set_last_be (v : Z) (t : tlp) : tlp := mkTlp (fmt t) (type_ t) (tc t) (ln t) (th t) (td t) (ep t) (attr t) (at_ t) (tlen t) (completer_id t) (status t) (bcm t) (byte_count t) (requester_id t) (tag t) (first_be t) v (lower_address t) (address t) (ph t) (data t) (seq t).
Definition set_lower_address (v : Z) (t : tlp) : tlp := mkTlp (fmt t) (type_ t) (tc t) (ln t) (th t) (td t) (ep t) (attr t) (at_ t) (tlen t) (completer_id t) (status t) (bcm t) (byte_count t) (requester_id t) (tag t) (first_be t) (last_be t) v (address t) (ph t) (data t) (seq t).
Definition set_address (v : Z) (t : tlp) : tlp := mkTlp (fmt t) (type_ t) (tc t) (ln t) (th t) (td t) (ep t) (attr t) (at_ t) (tlen t) (completer_id t) (status t) (bcm t) (byte_count t) (requester_id t) (tag t) (first_be t) (last_be t) (lower_address t) v (ph t) (data t) (seq t).
Definition set_ph (v : Z) (t : tlp) : tlp := mkTlp (fmt t) (type_ t) (tc t) (ln t) (th t) (td t) (ep t) (attr t) (at_ t) (tlen t) (completer_id t) (status t) (bcm t) (byte_count t) (requester_id t) (tag t) (first_be t) (last_be t) (lower_address t) (address t) v (data t) (seq t).
Definition set_data (v : list Z) (t : tlp) : tlp := mkTlp (fmt t) (type_ t) (tc t) (ln t) (th t) (td t) (ep t) (attr t) (at_ t) (tlen t) (completer_id t) (status t) (bcm t) (byte_count t) (requester_id t) (tag t) (first_be t) (last_be t) (lower_address t) (address t) (ph t) v (seq t).
Definition set_seq (v : Z) (t : tlp) : tlp := mkTlp (fmt t) (type_ t) (tc t) (ln t) (th t) (td t) (ep t) (attr t) (at_ t) (tlen t) (completer_id t) (status t) (bcm t) (byte_count t) (requester_id t) (tag t) (first_be t) (last_be t) (lower_address t) (address t) (ph t) (data t) v.

(** core/tlp.py:189-215, [Tlp()] *)
Definition tlp0 : tlp :=
  mkTlp 0 0 0 false false false false 0 0 0 id0 0 false 0 id0 0 0 0 0 0 0 [] 0.

(** core/tlp.py:217-239, [Tlp(tlp)]: every attribute except [th] is copied. *)
Definition tlp_copy (t : tlp) : tlp := set_th false t.

(** core/tlp.py:241-250 *)
Definition fmt_type (t : tlp) : res tlp_type := fmt_type_of (fmt t) (type_ t).
Definition set_fmt_type (ty : tlp_type) (t : tlp) : tlp :=
  set_type_ (snd (type_code ty)) (set_fmt (fst (type_code ty)) t).

(** core/tlp.py:277-309 [Tlp.check].  The chained comparison [0 > length > 1024] is
    [0 > length and length > 1024]; the comparison of a [TlpType] with a set in line 292 is always
    false, as written. [ValueError] for an unknown type. *)
Definition tlp_check (t : tlp) : res bool :=
  let data_bad :=
    if (fmt t =? 2) || (fmt t =? 3)
    then negb (tlen t * 4 =? zlen (data t)) || ((0 >? tlen t) && (tlen t >? 1024))
    else false in
  ty <- fmt_type t ;;
  let mem_bad :=
    if type_in ty [MEM_READ; MEM_READ_64; MEM_READ_LOCKED; MEM_READ_LOCKED_64; MEM_WRITE; MEM_WRITE_64]
    then tlen t * 4 >? 4096 - Z.land (address t) 4095 else false in
  let cfg_bad := if false then negb (tlen t =? 1) || negb (last_be t =? 0) else false in
  let cpl_bad :=
    if type_in ty [CPL_DATA; CPL_LOCKED_DATA]
    then byte_count t + Z.land (lower_address t) 3 + 3 <? tlen t * 4 else false in
  let rsv_bad :=
    if type_in ty [CPL; CPL_LOCKED; MSG_TO_RC; MSG_ADDR; MSG_ID; MSG_BCAST; MSG_LOCAL; MSG_GATHER]
    then negb (tlen t =? 0) else false in
  Ok (negb (data_bad || mem_bad || cfg_bad || cpl_bad || rsv_bad)).

(** core/tlp.py:311-325 [Tlp.create_completion_for_tlp] *)
Definition create_completion (t : tlp) (cid : pcie_id) (has_data : bool) (st : Z) : tlp :=
  let c := set_fmt_type (if has_data then CPL_DATA else CPL) tlp0 in
  let c := set_requester_id (requester_id t) c in
  let c := set_completer_id cid c in
  let c := set_status st c in
  let c := set_attr (attr t) c in
  let c := set_tag (tag t) c in
  set_tc (tc t) c.

(** core/tlp.py:327-345 *)
Definition create_completion_data t cid := create_completion t cid true SC.
Definition create_ur_completion t cid := create_completion t cid false UR.
Definition create_crs_completion t cid := create_completion t cid false CRS.
Definition create_ca_completion t cid := create_completion t cid false CA.

(** core/tlp.py:347-363 [Tlp.set_addr_be]; returns (first_pad, last_pad) and the updated TLP. *)
Definition set_addr_be (addr length : Z) (t : tlp) : (Z * Z) * tlp :=
  let t := set_address (Z.land addr (Z.lnot 3)) t in
  let first_pad := addr mod 4 in
  let last_pad := 3 - (addr + length - 1) mod 4 in
  let t := set_tlen ((length + first_pad + last_pad + 3) / 4) t in
  let t := set_first_be (Z.land (Z.shiftl 15 first_pad) 15) t in
  let t := set_last_be (Z.shiftr 15 last_pad) t in
  let t :=
    if tlen t =? 0 then set_last_be 0 (set_first_be 0 (set_tlen 1 t))
    else if tlen t =? 1 then set_last_be 0 (set_first_be (Z.land (first_be t) (last_be t)) t)
    else t in
  ((first_pad, last_pad), t).

(** core/tlp.py:365-368 [Tlp.set_data] *)
Definition tlp_set_data (d : list Z) (t : tlp) : tlp := set_tlen (zlen d / 4) (set_data d t).

(** core/tlp.py:370-379 [Tlp.set_addr_be_data] *)
Definition set_addr_be_data (addr : Z) (d : list Z) (t : tlp) : tlp :=
  let t := set_address (Z.land addr (Z.lnot 3)) t in
  let '((first_pad, last_pad), t) := set_addr_be addr (zlen d) t in
  let dd := zeros (Z.to_nat first_pad) ++ d ++ zeros (Z.to_nat last_pad) in
  set_data (if zlen dd =? 0 then [0; 0; 0; 0] else dd) t.

(** core/tlp.py:384-393 [Tlp.get_first_be_offset] *)
Definition get_first_be_offset (t : tlp) : Z :=
  if Z.land (first_be t) 7 =? 0 then 3
  else if Z.land (first_be t) 3 =? 0 then 2
  else if Z.land (first_be t) 1 =? 0 then 1
  else 0.

(** core/tlp.py:395-408 [Tlp.get_last_be_offset] *)
Definition get_last_be_offset (t : tlp) : Z :=
  let be := if tlen t =? 1 then first_be t else last_be t in
  if Z.land be 15 =? 1 then 3
  else if Z.land be 14 =? 2 then 2
  else if Z.land be 12 =? 4 then 1
  else 0.

(** core/tlp.py:410-412 [Tlp.get_be_byte_count] *)
Definition get_be_byte_count (t : tlp) : Z :=
  tlen t * 4 - get_first_be_offset t - get_last_be_offset t.

(** core/tlp.py:414-416 [Tlp.get_lower_address]; in Python [&] binds weaker than [+]. *)
Definition get_lower_address (t : tlp) : Z :=
  Z.land (address t) (124 + get_first_be_offset t).

(** core/tlp.py:418-458 *)
Definition has_data (t : tlp) : bool := (fmt t =? 2) || (fmt t =? 3).
Definition get_header_size (t : tlp) : Z := if (fmt t =? 1) || (fmt t =? 3) then 16 else 12.
Definition get_header_size_dw (t : tlp) : Z := if (fmt t =? 1) || (fmt t =? 3) then 4 else 3.
Definition get_payload_size (t : tlp) : Z := zlen (data t).
Definition get_payload_size_dw (t : tlp) : Z := zlen (data t) / 4.
Definition get_size (t : tlp) : Z := get_header_size t + get_payload_size t.
Definition get_size_dw (t : tlp) : Z := get_header_size_dw t + get_payload_size_dw t.
Definition get_wire_size (t : tlp) : Z := get_size t + 8.
Definition get_data_credits (t : tlp) : Z := (get_payload_size_dw t + 3) / 4.

(** core/tlp.py:460-470 *)
Definition get_fc_type (t : tlp) : res fc_type := ty <- fmt_type t ;; type_fc ty.

(** The set of request types listed in core/tlp.py:495-498 and 566-569, of configuration request
    types (505, 576), of completion types (518, 588) and the set of line 562-563. *)
Definition req_types : list tlp_type :=
  [CFG_READ_0; CFG_WRITE_0; CFG_READ_1; CFG_WRITE_1; MEM_READ; MEM_READ_64; MEM_READ_LOCKED;
   MEM_READ_LOCKED_64; MEM_WRITE; MEM_WRITE_64; IO_READ; IO_WRITE; FETCH_ADD; FETCH_ADD_64; SWAP;
   SWAP_64; CAS; CAS_64].
Definition cfg_types : list tlp_type := [CFG_READ_0; CFG_WRITE_0; CFG_READ_1; CFG_WRITE_1].
Definition cpl_types : list tlp_type := [CPL; CPL_DATA; CPL_LOCKED; CPL_LOCKED_DATA].
Definition nolen_types : list tlp_type :=
  [CPL; CPL_LOCKED; MSG_TO_RC; MSG_ADDR; MSG_ID; MSG_BCAST; MSG_LOCAL; MSG_GATHER].

(** core/tlp.py:480-492, the first header DWORD. *)
Definition header_dw0 (t : tlp) : Z :=
  let dw := Z.land (tlen t) 1023 in
  let dw := Z.lor dw (Z.shiftl (Z.land (at_ t) 3) 10) in
  let dw := Z.lor dw (Z.shiftl (Z.land (attr t) 3) 12) in
  let dw := Z.lor dw (Z.shiftl (Z.b2z (ep t)) 14) in
  let dw := Z.lor dw (Z.shiftl (Z.b2z (td t)) 15) in
  let dw := Z.lor dw (Z.shiftl (Z.b2z (th t)) 16) in
  let dw := Z.lor dw (Z.shiftl (Z.b2z (ln t)) 17) in
  let dw := Z.lor dw (Z.shiftl (Z.land (attr t) 4) 16) in
  let dw := Z.lor dw (Z.shiftl (Z.land (tag t) 256) 11) in
  let dw := Z.lor dw (Z.shiftl (Z.land (tc t) 7) 20) in
  let dw := Z.lor dw (Z.shiftl (Z.land (tag t) 512) 14) in
  let dw := Z.lor dw (Z.shiftl (Z.land (type_ t) 31) 24) in
  Z.lor dw (Z.shiftl (Z.land (fmt t) 7) 29).

(** core/tlp.py:476-531 [Tlp.pack_header] *)
Definition pack_header (t : tlp) : res (list Z) :=
  p0 <- struct_pack_be 4 (header_dw0 t) ;;
  ty <- fmt_type t ;;
  if type_in ty req_types then
    let dw := Z.land (first_be t) 15 in
    let dw := Z.lor dw (Z.shiftl (Z.land (last_be t) 15) 4) in
    let dw := Z.lor dw (Z.shiftl (Z.land (tag t) 255) 8) in
    let dw := Z.lor dw (Z.shiftl (id_int (requester_id t)) 16) in
    p1 <- struct_pack_be 4 dw ;;
    if type_in ty cfg_types then
      let dw := Z.land (address t) 4092 in
      let dw := Z.lor dw (Z.shiftl (id_int (completer_id t)) 16) in
      p2 <- struct_pack_be 4 dw ;; Ok (p0 ++ p1 ++ p2)
    else if (fmt t =? 1) || (fmt t =? 3) then
      let val := Z.land (address t) 18446744073709551612 in
      let val := Z.lor val (Z.land (ph t) 3) in
      p2 <- struct_pack_be 8 val ;; Ok (p0 ++ p1 ++ p2)
    else
      let dw := Z.land (address t) 4294967292 in
      let dw := Z.lor dw (Z.land (ph t) 3) in
      p2 <- struct_pack_be 4 dw ;; Ok (p0 ++ p1 ++ p2)
  else if type_in ty cpl_types then
    let dw := Z.land (byte_count t) 4095 in
    let dw := Z.lor dw (Z.shiftl (Z.b2z (bcm t)) 12) in
    let dw := Z.lor dw (Z.shiftl (Z.land (status t) 7) 13) in
    let dw := Z.lor dw (Z.shiftl (id_int (completer_id t)) 16) in
    p1 <- struct_pack_be 4 dw ;;
    let dw := Z.land (lower_address t) 127 in
    let dw := Z.lor dw (Z.shiftl (Z.land (tag t) 255) 8) in
    let dw := Z.lor dw (Z.shiftl (id_int (requester_id t)) 16) in
    p2 <- struct_pack_be 4 dw ;; Ok (p0 ++ p1 ++ p2)
  else Err PyException.

(** core/tlp.py:533-540 [Tlp.pack] *)
Definition pack (t : tlp) : res (list Z) :=
  h <- pack_header t ;;
  Ok (if has_data t then h ++ data t else h).

(** core/tlp.py:542-604 [Tlp.unpack_header] *)
Definition unpack_header (pkt : list Z) : res tlp :=
  dw <- struct_unpack_be 4 pkt 0 ;;
  at' <- tlp_at (Z.land (Z.shiftr dw 10) 3) ;;
  let t := set_tlen (Z.land dw 1023) tlp0 in
  let t := set_at_ at' t in
  let t := set_attr (Z.land (Z.shiftr dw 12) 3) t in
  let t := set_ep (zbool (Z.land dw (Z.shiftl 1 14))) t in
  let t := set_td (zbool (Z.land dw (Z.shiftl 1 15))) t in
  let t := set_th (zbool (Z.land dw (Z.shiftl 1 16))) t in
  let t := set_ln (zbool (Z.land dw (Z.shiftl 1 17))) t in
  let t := set_attr (Z.lor (attr t) (Z.land (Z.shiftr dw 16) 4)) t in
  let t := set_tag (Z.land (Z.shiftr dw 11) 256) t in
  let t := set_tc (Z.land (Z.shiftr dw 20) 7) t in
  let t := set_tag (Z.lor (tag t) (Z.land (Z.shiftr dw 14) 512)) t in
  let t := set_type_ (Z.land (Z.shiftr dw 24) 31) t in
  let t := set_fmt (Z.land (Z.shiftr dw 29) 7) t in
  ty <- fmt_type t ;;
  let t := if negb (type_in ty nolen_types) && (tlen t =? 0) then set_tlen 1024 t else t in
  if type_in ty req_types then
    dw <- struct_unpack_be 4 pkt 4 ;;
    let t := set_first_be (Z.land dw 15) t in
    let t := set_last_be (Z.land (Z.shiftr dw 4) 15) t in
    let t := set_tag (Z.lor (tag t) (Z.land (Z.shiftr dw 8) 255)) t in
    let t := set_requester_id (id_from_int (Z.shiftr dw 16)) t in
    if type_in ty cfg_types then
      dw <- struct_unpack_be 4 pkt 8 ;;
      let t := set_address (Z.land dw 4092) t in
      Ok (set_completer_id (id_from_int (Z.shiftr dw 16)) t)
    else if (fmt t =? 1) || (fmt t =? 3) then
      val <- struct_unpack_be 8 pkt 8 ;;
      let t := set_address (Z.land val 18446744073709551612) t in
      Ok (set_ph (Z.land val 3) t)
    else
      dw <- struct_unpack_be 4 pkt 8 ;;
      let t := set_address (Z.land dw 4294967292) t in
      Ok (set_ph (Z.land dw 3) t)
  else if type_in ty cpl_types then
    dw <- struct_unpack_be 4 pkt 4 ;;
    let t := set_byte_count (Z.land dw 4095) t in
    let t := set_bcm (zbool (Z.land dw (Z.shiftl 1 12))) t in
    st <- cpl_status (Z.land (Z.shiftr dw 13) 7) ;;
    let t := set_status st t in
    let t := set_completer_id (id_from_int (Z.shiftr dw 16)) t in
    dw <- struct_unpack_be 4 pkt 8 ;;
    let t := set_lower_address (Z.land dw 127) t in
    let t := set_tag (Z.lor (tag t) (Z.land (Z.shiftr dw 8) 255)) t in
    let t := set_requester_id (id_from_int (Z.shiftr dw 16)) t in
    Ok (if byte_count t =? 0 then set_byte_count 4096 t else t)
  else Err PyException.

(** core/tlp.py:606-613 [Tlp.unpack] *)
Definition unpack (pkt : list Z) : res tlp :=
  t <- unpack_header pkt ;;
  Ok (set_data (skipn (Z.to_nat (get_header_size t)) pkt) t).

(** core/tlp.py:615-641 [Tlp.__eq__]: all attributes except [th]. *)
Definition list_eqb (a b : list Z) : bool :=
  (length a =? length b)%nat && forallb (fun p => fst p =? snd p) (combine a b).
Definition tlp_eqb (a b : tlp) : bool :=
  list_eqb (data a) (data b) && (fmt a =? fmt b) && (type_ a =? type_ b) && (tc a =? tc b) &&
  Bool.eqb (ln a) (ln b) && Bool.eqb (td a) (td b) && Bool.eqb (ep a) (ep b) && (attr a =? attr b) &&
  (at_ a =? at_ b) && (tlen a =? tlen b) && id_eqb (completer_id a) (completer_id b) &&
  (status a =? status b) && Bool.eqb (bcm a) (bcm b) && (byte_count a =? byte_count b) &&
  id_eqb (requester_id a) (requester_id b) && (tag a =? tag b) && (first_be a =? first_be b) &&
  (last_be a =? last_be b) && (lower_address a =? lower_address b) && (address a =? address b) &&
  (ph a =? ph b) && (seq a =? seq b).
