(** The UltraScale descriptors: which fields each interface carries and where (PG213). *)
From Verif Require Import Base ModelUtils ModelTlp SpecTlp ModelFrames ModelUs.

(** The request type codes. *)
Definition req_code (ty : tlp_type) : option Z :=
  match ty with
  | MEM_READ | MEM_READ_64 => Some 0 | MEM_WRITE | MEM_WRITE_64 => Some 1 | IO_READ => Some 2 | IO_WRITE => Some 3
  | FETCH_ADD | FETCH_ADD_64 => Some 4 | SWAP | SWAP_64 => Some 5 | CAS | CAS_64 => Some 6
  | MEM_READ_LOCKED | MEM_READ_LOCKED_64 => Some 7
  | CFG_READ_0 => Some 8 | CFG_READ_1 => Some 9 | CFG_WRITE_0 => Some 10 | CFG_WRITE_1 => Some 11
  | _ => None
  end.
(** Fields common to all TLPs on these interfaces, in range.  Tags have 8 bits. *)
Record us_common (ty : tlp_type) (t : tlp) : Prop := {
  uc_type : type_code ty = (fmt t, type_ t);
  uc_tc : 0 <= tc t < 8;
  uc_attr : 0 <= attr t < 8;
  uc_tag : 0 <= tag t < 256;
  uc_len : 0 <= tlen t < 2048;
  uc_rid : id_range (requester_id t);
  uc_bytes : bytes_ok (data t) }.
(** A memory, IO or atomic request; the descriptor tells 3 DW from 4 DW headers by the address alone. *)
Record us_mem_req (ty : tlp_type) (k : kind) (t : tlp) : Prop := {
  um_kind : kind_of ty = Some k;
  um_addr : match k with KReq32 => 0 <= address t < 2 ^ 32 | KReq64 => 2 ^ 32 <= address t < 2 ^ 64 | _ => False end;
  um_align : address t mod 4 = 0;
  um_at : at_ t = 0 \/ at_ t = 1 \/ at_ t = 2;
  um_data : zlen (data t) mod 4 = 0 }.
Record us_cfg_req (ty : tlp_type) (t : tlp) : Prop := {
  ug_kind : kind_of ty = Some KCfg;
  ug_addr : 0 <= address t < 4096;
  ug_align : address t mod 4 = 0;
  ug_data : zlen (data t) mod 4 = 0 }.
Record us_cpl (ty : tlp_type) (t : tlp) : Prop := {
  ul_kind : kind_of ty = Some KCpl;
  ul_status : status t = 0 \/ status t = 1 \/ status t = 2 \/ status t = 4;
  ul_count : 0 <= byte_count t < 8192;
  ul_cid : id_range (completer_id t);
  ul_data : zlen (data t) = 4 * tlen t;
  ul_payload : with_payload ty = (0 <? tlen t) }.

(** What the interfaces carry; everything else as in a new TLP. *)
Definition carried_cq (u : tlp_us) : tlp_us :=
  let t := u_tlp u in
  mkTlpUs {| fmt := fmt t; type_ := type_ t; tc := tc t; ln := false; th := false; td := false; ep := false;
             attr := attr t; at_ := at_ t; tlen := tlen t; completer_id := mkId 0 0 (func (completer_id t)); status := 0; bcm := false;
             byte_count := 0; requester_id := requester_id t; tag := tag t; first_be := first_be t; last_be := last_be t;
             lower_address := 0; address := address t; ph := 0; data := data t; seq := 0 |}
    (bar_id u) (bar_aperture u) false false (discontinue u) 0 0 0.
Definition carried_rq (u : tlp_us) : tlp_us :=
  let t := u_tlp u in
  mkTlpUs {| fmt := fmt t; type_ := type_ t; tc := tc t; ln := false; th := false; td := false; ep := ep t;
             attr := attr t; at_ := match fmt_type t with Ok ty => if type_in ty cfg_types then 0 else at_ t | Err _ => 0 end;
             tlen := tlen t; completer_id := completer_id t; status := 0; bcm := false;
             byte_count := 0; requester_id := requester_id t; tag := tag t; first_be := first_be t; last_be := last_be t;
             lower_address := 0; address := address t; ph := 0; data := data t; seq := 0 |}
    0 0 false (rid_enable u) (discontinue u) (seq_num u) 0 0.
Definition carried_cpl (t : tlp) (a : Z) : tlp :=
  {| fmt := fmt t; type_ := type_ t; tc := tc t; ln := false; th := false; td := false; ep := ep t;
     attr := attr t; at_ := a; tlen := tlen t; completer_id := completer_id t; status := status t; bcm := false;
     byte_count := byte_count t; requester_id := requester_id t; tag := tag t; first_be := 0; last_be := 0;
     lower_address := lower_address t; address := 0; ph := 0; data := data t; seq := 0 |}.
Definition carried_cc (u : tlp_us) : tlp_us :=
  mkTlpUs (carried_cpl (u_tlp u) (at_ (u_tlp u))) 0 0 (cid_enable u) false (discontinue u) 0 0 0.
(** [request_completed] comes back as the bit in its place. *)
Definition carried_rc (u : tlp_us) : tlp_us :=
  mkTlpUs (carried_cpl (u_tlp u) 0) 0 0 false false (discontinue u) 0 (error_code u) (if request_completed u =? 0 then 0 else 2 ^ 30).

(** The descriptors, PG213 "Completer Request Descriptor Formats" and the following sections. *)
Definition dw (f : us_frame) (i : nat) : Z := nth i (us_data f) 0.
Definition layout_addr (t : tlp) (f : us_frame) : Prop :=
  field (dw f 0) 0 2 = at_ t /\ field (dw f 0) 2 30 = field (address t) 2 30 /\ dw f 1 = address t / 2 ^ 32.
Definition layout_cq (ty : tlp_type) (u : tlp_us) (f : us_frame) : Prop :=
  let t := u_tlp u in
  layout_addr t f /\
  field (dw f 2) 0 11 = tlen t /\ req_code ty = Some (field (dw f 2) 11 4) /\ field (dw f 2) 15 1 = 0 /\ field (dw f 2) 16 16 = id16 (requester_id t) /\
  field (dw f 3) 0 8 = tag t /\ field (dw f 3) 8 8 = func (completer_id t) /\ field (dw f 3) 16 3 = bar_id u /\
  field (dw f 3) 19 6 = bar_aperture u /\ field (dw f 3) 25 3 = tc t /\ field (dw f 3) 28 3 = attr t /\ field (dw f 3) 31 1 = 0.
Definition layout_rq (ty : tlp_type) (u : tlp_us) (f : us_frame) : Prop :=
  let t := u_tlp u in
  (if type_in ty cfg_types then dw f 0 = address t /\ dw f 1 = 0 else layout_addr t f) /\
  field (dw f 2) 0 11 = tlen t /\ req_code ty = Some (field (dw f 2) 11 4) /\ field (dw f 2) 15 1 = flag (ep t) /\
  field (dw f 2) 16 16 = id16 (requester_id t) /\
  field (dw f 3) 0 8 = tag t /\ field (dw f 3) 8 16 = id16 (completer_id t) /\ field (dw f 3) 24 1 = flag (rid_enable u) /\
  field (dw f 3) 25 3 = tc t /\ field (dw f 3) 28 3 = attr t /\ field (dw f 3) 31 1 = 0.
Definition is_locked (ty : tlp_type) : bool := match ty with CPL_LOCKED | CPL_LOCKED_DATA => true | _ => false end.
Definition layout_cpl (ty : tlp_type) (t : tlp) (f : us_frame) : Prop :=
  field (dw f 0) 16 13 = byte_count t /\ field (dw f 0) 29 1 = flag (is_locked ty) /\ field (dw f 0) 31 1 = 0 /\
  field (dw f 1) 0 11 = tlen t /\ field (dw f 1) 11 3 = status t /\ field (dw f 1) 14 1 = flag (ep t) /\ field (dw f 1) 15 1 = 0 /\
  field (dw f 1) 16 16 = id16 (requester_id t) /\
  field (dw f 2) 0 8 = tag t /\ field (dw f 2) 8 16 = id16 (completer_id t) /\ field (dw f 2) 25 3 = tc t /\ field (dw f 2) 28 3 = attr t /\
  field (dw f 2) 31 1 = 0.
Definition layout_cc (ty : tlp_type) (u : tlp_us) (f : us_frame) : Prop :=
  let t := u_tlp u in
  layout_cpl ty t f /\ field (dw f 0) 0 7 = lower_address t /\ field (dw f 0) 7 1 = 0 /\ field (dw f 0) 8 2 = at_ t /\ field (dw f 0) 10 6 = 0 /\
  field (dw f 0) 30 1 = 0 /\ field (dw f 2) 24 1 = flag (cid_enable u).
Definition layout_rc (ty : tlp_type) (u : tlp_us) (f : us_frame) : Prop :=
  let t := u_tlp u in
  layout_cpl ty t f /\ field (dw f 0) 0 12 = lower_address t /\ field (dw f 0) 12 4 = error_code u /\
  field (dw f 0) 30 1 = flag (negb (request_completed u =? 0)) /\ field (dw f 2) 24 1 = 0.

(** The payload words: each word holds four bytes, the first one in the low bits. *)
Definition word_bytes_at (d : list Z) (l : list Z) : Prop :=
  zlen d = 4 * zlen l /\ forall i j, 0 <= i < zlen l -> 0 <= j < 4 -> field (nth (Z.to_nat i) l 0) (8 * j) 8 = nth (Z.to_nat (4 * i + j)) d 0.
(** Bit [j] of the byte enables of word [i] of a frame. *)
Definition be_bit (f : us_frame) (i j : Z) : bool := Z.testbit (nth (Z.to_nat i) (us_byte_en f) 0) j.
