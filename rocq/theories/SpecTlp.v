(** Specification of the TLP wire format: which fields each kind of TLP carries, in which width,
    where the PCIe specification places them, and which bytes a request addresses. *)
From Verif Require Import Base ModelUtils ModelTlp.

(** Kinds of TLP with a defined header layout; 3 DW or 4 DW requests, configuration requests,
    completions.  Messages and prefixes have none in this package. *)
Inductive kind := KReq32 | KReq64 | KCfg | KCpl.
Definition kind_of (ty : tlp_type) : option kind :=
  match ty with
  | MEM_READ | MEM_READ_LOCKED | MEM_WRITE | IO_READ | IO_WRITE | FETCH_ADD | SWAP | CAS => Some KReq32
  | MEM_READ_64 | MEM_READ_LOCKED_64 | MEM_WRITE_64 | FETCH_ADD_64 | SWAP_64 | CAS_64 => Some KReq64
  | CFG_READ_0 | CFG_WRITE_0 | CFG_READ_1 | CFG_WRITE_1 => Some KCfg
  | CPL | CPL_DATA | CPL_LOCKED | CPL_LOCKED_DATA => Some KCpl
  | _ => None
  end.
(** Does the type carry a payload; is its length field reserved (zero)? *)
Definition with_payload (ty : tlp_type) : bool :=
  match ty with
  | MEM_WRITE | MEM_WRITE_64 | IO_WRITE | CFG_WRITE_0 | CFG_WRITE_1 | CPL_DATA | CPL_LOCKED_DATA
  | FETCH_ADD | FETCH_ADD_64 | SWAP | SWAP_64 | CAS | CAS_64 => true
  | _ => false
  end.
Definition length_reserved (ty : tlp_type) : bool :=
  match ty with CPL | CPL_LOCKED => true | _ => false end.

Definition id_range (i : pcie_id) : Prop := 0 <= bus i <= 255 /\ 0 <= device i <= 31 /\ 0 <= func i <= 7.

(** [t] is of type [ty] and every field that [ty] carries is in range. *)
Record fits (ty : tlp_type) (k : kind) (t : tlp) : Prop := {
  f_type : type_code ty = (fmt t, type_ t);
  f_kind : kind_of ty = Some k;
  f_tc : 0 <= tc t < 8;
  f_attr : 0 <= attr t < 8;
  f_at : at_ t = 0 \/ at_ t = 1 \/ at_ t = 2;
  f_tag : 0 <= tag t < 1024;
  f_len : if length_reserved ty then 0 <= tlen t < 1024 else 1 <= tlen t <= 1024;
  f_rid : id_range (requester_id t);
  f_req : match k with KReq32 | KReq64 | KCfg => 0 <= first_be t < 16 /\ 0 <= last_be t < 16 | KCpl => True end;
  f_addr : match k with
           | KReq32 => 0 <= address t < 2 ^ 32 /\ address t mod 4 = 0 /\ 0 <= ph t < 4
           | KReq64 => 0 <= address t < 2 ^ 64 /\ address t mod 4 = 0 /\ 0 <= ph t < 4
           | KCfg => 0 <= address t < 4096 /\ address t mod 4 = 0 /\ id_range (completer_id t)
           | KCpl => id_range (completer_id t) /\ (status t = 0 \/ status t = 1 \/ status t = 2 \/ status t = 4)
                     /\ 1 <= byte_count t <= 4096 /\ 0 <= lower_address t < 128
           end;
}.

(** The part of a TLP that its kind carries on the wire; everything else as in an empty TLP. *)
Definition on_wire (ty : tlp_type) (k : kind) (t : tlp) : tlp :=
  let req := match k with KCpl => false | _ => true end in
  let addr32 := match k with KReq32 | KReq64 => true | _ => false end in
  let cid := match k with KCfg | KCpl => true | _ => false end in
  {| fmt := fmt t; type_ := type_ t; tc := tc t; ln := ln t; th := th t; td := td t; ep := ep t;
     attr := attr t; at_ := at_ t; tlen := tlen t;
     completer_id := if cid then completer_id t else mkId 0 0 0;
     status := if req then 0 else status t;
     bcm := if req then false else bcm t;
     byte_count := if req then 0 else byte_count t;
     requester_id := requester_id t; tag := tag t;
     first_be := if req then first_be t else 0;
     last_be := if req then last_be t else 0;
     lower_address := if req then 0 else lower_address t;
     address := if req then address t else 0;
     ph := if addr32 then ph t else 0;
     data := if with_payload ty then data t else [];
     seq := 0 |}.

(** Field [lo, lo+w) of a word. *)
Definition field (v lo w : Z) : Z := (v / 2 ^ lo) mod 2 ^ w.
(** The n-th DWORD of a packet, most significant byte first. *)
Definition dword (p : list Z) (n : nat) : Z :=
  match skipn (4 * n) p with
  | a :: b :: c :: d :: _ => ((a * 256 + b) * 256 + c) * 256 + d
  | _ => -1
  end.
Definition flag (b : bool) : Z := if b then 1 else 0.
Definition id16 (i : pcie_id) : Z := bus i * 256 + device i * 8 + func i.

(** PCI Express Base Specification, sections 2.2.1, 2.2.6-2.2.9 and 2.2.7 (header layouts). *)
Definition layout_dw0 (t : tlp) (v : Z) : Prop :=
  field v 29 3 = fmt t /\ field v 24 5 = type_ t /\ field v 23 1 = field (tag t) 9 1 /\
  field v 20 3 = tc t /\ field v 19 1 = field (tag t) 8 1 /\ field v 18 1 = field (attr t) 2 1 /\
  field v 17 1 = flag (ln t) /\ field v 16 1 = flag (th t) /\ field v 15 1 = flag (td t) /\
  field v 14 1 = flag (ep t) /\ field v 12 2 = field (attr t) 0 2 /\ field v 10 2 = at_ t /\
  field v 0 10 = tlen t mod 1024.
Definition layout_req_dw1 (t : tlp) (v : Z) : Prop :=
  field v 16 16 = id16 (requester_id t) /\ field v 8 8 = field (tag t) 0 8 /\
  field v 4 4 = last_be t /\ field v 0 4 = first_be t.
Definition layout (k : kind) (t : tlp) (p : list Z) : Prop :=
  layout_dw0 t (dword p 0) /\
  match k with
  | KReq32 => layout_req_dw1 t (dword p 1) /\ dword p 2 = address t + ph t
  | KReq64 => layout_req_dw1 t (dword p 1) /\ dword p 2 * 2 ^ 32 + dword p 3 = address t + ph t
  | KCfg => layout_req_dw1 t (dword p 1) /\ field (dword p 2) 16 16 = id16 (completer_id t) /\
            field (dword p 2) 12 4 = 0 /\ field (dword p 2) 0 12 = address t
  | KCpl => field (dword p 1) 16 16 = id16 (completer_id t) /\ field (dword p 1) 13 3 = status t /\
            field (dword p 1) 12 1 = flag (bcm t) /\ field (dword p 1) 0 12 = byte_count t mod 4096 /\
            field (dword p 2) 16 16 = id16 (requester_id t) /\ field (dword p 2) 8 8 = field (tag t) 0 8 /\
            field (dword p 2) 7 1 = 0 /\ field (dword p 2) 0 7 = lower_address t
  end.
Definition header_len (k : kind) : nat := match k with KReq64 => 16 | _ => 12 end.

(** A received packet with the bits the format reserves cleared and, for types without payload,
    whatever follows the header removed. *)
Definition mask_byte (n : nat) (m : Z) (p : list Z) : list Z :=
  firstn n p ++ map (fun b => Z.land b m) (firstn 1 (skipn n p)) ++ skipn (S n) p.
Definition canonical (ty : tlp_type) (k : kind) (p : list Z) : list Z :=
  let p := match k with
           | KCfg => mask_byte 10 0x0f (mask_byte 11 0xfc p)
           | KCpl => mask_byte 11 0x7f p
           | _ => p
           end in
  if with_payload ty then p else firstn (header_len k) p.

(** Bytes addressed by a request: DWORD [i] of the [len] DWORDs starting at [addr], byte lane [j]. *)
Definition lane_enabled (len fbe lbe i j : Z) : bool :=
  if i =? 0 then Z.testbit fbe j else if i =? len - 1 then Z.testbit lbe j else true.
Definition addressed (t : tlp) (a : Z) : Prop :=
  exists i j, 0 <= i < tlen t /\ 0 <= j < 4 /\ a = address t + 4 * i + j /\
    lane_enabled (tlen t) (first_be t) (last_be t) i j = true.

(** The payload bytes whose lane is enabled, in order; [i] is the index of the head of the list. *)
Fixpoint enabled_bytes (len fbe lbe i : Z) (l : list Z) : list Z :=
  match l with
  | [] => []
  | b :: r => (if lane_enabled len fbe lbe (i / 4) (i mod 4) then [b] else [])
              ++ enabled_bytes len fbe lbe (i + 1) r
  end.
Definition enabled_data (t : tlp) : list Z :=
  enabled_bytes (tlen t) (first_be t) (last_be t) 0 (data t).

(** The rules [Tlp.check] documents through its messages. *)
Record legal (ty : tlp_type) (t : tlp) : Prop := {
  (** payload length and range of the length field *)
  l_data : (fmt t = 2 \/ fmt t = 3) -> 4 * tlen t = zlen (data t) /\ 0 <= tlen t <= 1024;
  (** memory requests stay within a 4 KiB page *)
  l_page : In ty [MEM_READ; MEM_READ_64; MEM_READ_LOCKED; MEM_READ_LOCKED_64; MEM_WRITE; MEM_WRITE_64] ->
           address t mod 4096 + 4 * tlen t <= 4096;
  (** configuration and IO requests are one DWORD long without last byte enables *)
  l_cfgio : In ty [CFG_READ_0; CFG_WRITE_0; CFG_READ_1; CFG_WRITE_1; IO_READ; IO_WRITE] ->
            tlen t = 1 /\ last_be t = 0;
  (** the byte count of a completion covers its payload *)
  l_cpl : In ty [CPL_DATA; CPL_LOCKED_DATA] ->
          4 * tlen t <= byte_count t + lower_address t mod 4 + 3;
  (** the length field is reserved where there is no payload and no request *)
  l_rsv : In ty [CPL; CPL_LOCKED; MSG_TO_RC; MSG_ADDR; MSG_ID; MSG_BCAST; MSG_LOCAL; MSG_GATHER] -> tlen t = 0;
}.

(** Flow control class from the fmt and type fields (PCIe base specification, table 2-3 and section
    2.6.1): TLP prefixes have none; messages (type 10xxx) and memory writes (type 00000 with data) are
    posted, completions (type 0101x) are completions, the rest is non-posted. *)
Definition fc_class (fmt type : Z) : option fc_type :=
  if 4 <=? fmt then None
  else if type / 8 =? 2 then Some FC_P
  else if type / 2 =? 5 then Some FC_CPL
  else if (type =? 0) && (2 <=? fmt) then Some FC_P
  else Some FC_NP.
