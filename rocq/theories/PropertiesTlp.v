(** C01, C02, C05-C08: the TLP object. *)
From Verif Require Import Base BaseProofs ModelUtils ModelTlp SpecTlp ProofsTlp ProofsTlpCodec ProofsTlpBe.

(** Examples used below: a 4 DW memory write with payload and a completion with data. *)
Definition ex_write : tlp :=
  set_addr_be_data 0x123456789abd [1; 2; 3; 4; 5; 6]
    (set_tc 3 (set_th true (set_attr 5 (set_tag 0x2a7 (set_requester_id (mkId 0x12 0x1f 7) (set_fmt_type MEM_WRITE_64 tlp0)))))).
Definition ex_cpl : tlp :=
  set_byte_count 4096 (set_lower_address 0x44 (set_tlen 1 (set_data [9; 8; 7; 6]
    (create_completion_data ex_write (mkId 1 2 3))))).
Lemma ex_write_fits : fits MEM_WRITE_64 KReq64 ex_write.
Proof. split; cbn; unfold id_range; cbn; auto; try lia. Qed.
Lemma ex_cpl_fits : fits CPL_DATA KCpl ex_cpl.
Proof. split; cbn; unfold id_range, SC; cbn; auto; lia. Qed.

(** ** C01 *)
(** Packing a TLP whose fields fit succeeds, and unpacking the bytes gives back all that is on the
    wire (including [th]) and the payload. *)
Theorem C01_roundtrip : forall ty k t, fits ty k t -> (with_payload ty = true -> bytes_ok (data t)) ->
  exists p, pack t = Ok p /\ bytes_ok p /\ unpack p = Ok (on_wire ty k t).
Proof. exact roundtrip. Qed.
(** If the TLP sets no field that its type does not carry, the result is equal in the sense of
    [Tlp.__eq__] (which ignores [th]) and in [th]. *)
Theorem C01_roundtrip_equal : forall ty k t, fits ty k t -> (with_payload ty = true -> bytes_ok (data t)) ->
  on_wire ty k t = t ->
  exists p u, pack t = Ok p /\ unpack p = Ok u /\ tlp_eqb u t = true /\ th u = th t.
Proof. exact roundtrip_eq. Qed.
Example C01_ex_write : fits MEM_WRITE_64 KReq64 ex_write /\ bytes_ok (data ex_write) /\
  on_wire MEM_WRITE_64 KReq64 ex_write = ex_write /\
  pack ex_write = Ok [0x60; 0xb5; 0x10; 2; 0x12; 0xff; 0xa7; 0x7e; 0; 0; 0x12; 0x34; 0x56; 0x78; 0x9a; 0xbc;
                      0; 1; 2; 3; 4; 5; 6; 0].
Proof.
  split; [exact ex_write_fits|]. split; [apply bytes_okb_ok; reflexivity|]. split; reflexivity.
Qed.
Example C01_ex_cpl : fits CPL_DATA KCpl ex_cpl /\ on_wire CPL_DATA KCpl ex_cpl = ex_cpl.
Proof. split; [exact ex_cpl_fits|reflexivity]. Qed.

(** What [Tlp.__eq__] means: equal in everything but [th]. *)
Theorem C01_eq_meaning : forall a b, tlp_eqb a b = true <-> set_th (th b) a = b.
Proof. exact tlp_eqb_iff. Qed.
Example C01_eq_ex : tlp_eqb ex_write (set_th false ex_write) = true /\ tlp_eqb ex_write (set_tag 1 ex_write) = false.
Proof. split; reflexivity. Qed.

(** The fields sit where the PCI Express specification puts them. *)
Theorem C01_layout : forall ty k t p, fits ty k t -> pack t = Ok p ->
  layout k t p /\ length p = (header_len k + if with_payload ty then length (data t) else 0)%nat.
Proof. exact pack_layout. Qed.

(** Types without a layout are rejected with an exception. *)
Theorem C01_reject : forall ty t, fmt_type t = Ok ty -> kind_of ty = None -> pack t = Err PyException.
Proof. exact pack_rejects. Qed.
Theorem C01_reject_unknown : forall t, (forall ty, type_code ty <> (fmt t, type_ t)) -> pack t = Err ValueError.
Proof. exact pack_unknown. Qed.
Example C01_reject_ex : fmt_type (set_fmt_type MSG_TO_RC tlp0) = Ok MSG_TO_RC /\ kind_of MSG_TO_RC = None.
Proof. split; reflexivity. Qed.

(** Finding: a completion without data as created by [create_ur_completion_for_tlp] has byte count 0
    and does not survive the wire: it comes back with byte count 4096. *)
Theorem C01_ur_completion_refuted : exists req cid p u,
  pack (create_ur_completion req cid) = Ok p /\ unpack p = Ok u /\
  tlp_eqb u (create_ur_completion req cid) = false /\ byte_count u = 4096.
Proof.
  exists ex_write, (mkId 1 2 3). eexists. eexists. split; [vm_compute; reflexivity|].
  split; [vm_compute; reflexivity|]. split; reflexivity.
Qed.
(** Finding: the copy constructor [Tlp(tlp)] drops [th]. *)
Theorem C01_copy_refuted : exists t, tlp_copy t <> t /\ forall u, th u = false -> tlp_copy u = u.
Proof.
  exists ex_write. split; [discriminate|]. intros u H. unfold tlp_copy, set_th. rewrite <- H. reflexivity.
Qed.

(** ** C41 *)
(** The size getters agree with the packed form and the credits are the payload in units of 16 bytes,
    rounded up. *)
Theorem C41_size : forall ty k t p, fits ty k t -> pack t = Ok p -> (with_payload ty = false -> data t = []) ->
  zlen p = get_size t /\ get_wire_size t = zlen p + 8.
Proof. exact pack_size. Qed.
Theorem C41_credits : forall t, zlen (data t) mod 4 = 0 ->
  zlen (data t) <= 16 * get_data_credits t < zlen (data t) + 16.
Proof. exact data_credits_spec. Qed.
Theorem C41_has_data : forall ty k t, kind_of ty = Some k -> type_code ty = (fmt t, type_ t) ->
  has_data t = with_payload ty /\ get_header_size t = Z.of_nat (header_len k).
Proof. exact kind_has_data. Qed.
(** Flow control class: writes to memory and messages are posted, completions are completions,
    everything else is non-posted. *)
Theorem C41_fc_type : forall ty t, fmt_type t = Ok ty ->
  match fc_class (fmt t) (type_ t) with Some c => get_fc_type t = Ok c | None => get_fc_type t = Err KeyError end.
Proof. exact fc_type_class. Qed.
Example C41_ex : get_size ex_write = 24 /\ get_data_credits ex_write = 1 /\ get_fc_type ex_write = Ok FC_P
  /\ get_fc_type ex_cpl = Ok FC_CPL.
Proof. repeat split; reflexivity. Qed.

(** ** C02 *)
Theorem C02_canonical : forall p t, bytes_ok p -> unpack p = Ok t ->
  exists ty k, fits ty k t /\ pack t = Ok (canonical ty k p).
Proof. exact unpack_inv. Qed.
Example C02_ex : exists t, unpack [0x44; 0; 0; 1; 1; 2; 3; 0x0f; 4; 0x28; 0xf0; 0xff; 1; 2; 3; 4] = Ok t
  /\ canonical CFG_WRITE_0 KCfg [0x44; 0; 0; 1; 1; 2; 3; 0x0f; 4; 0x28; 0xf0; 0xff; 1; 2; 3; 4] =
     [0x44; 0; 0; 1; 1; 2; 3; 0x0f; 4; 0x28; 0; 0xfc; 1; 2; 3; 4].
Proof. eexists. split; reflexivity. Qed.

Theorem C02_injective : forall ty k t ty' k' t', fits ty k t -> fits ty' k' t' -> pack t = pack t' ->
  ty = ty' /\ k = k' /\ on_wire ty k t = on_wire ty' k' t'.
Proof. exact pack_injective. Qed.

(** ** C05 *)
Theorem C05_bytes : forall addr len t, 1 <= len ->
  forall a, addressed (snd (set_addr_be addr len t)) a <-> addr <= a < addr + len.
Proof. exact set_addr_be_addressed. Qed.
(** The DWORD address is aligned and the length is the number of DWORDs the range touches. *)
Theorem C05_minimal : forall addr len t, 1 <= len ->
  address (snd (set_addr_be addr len t)) = 4 * (addr / 4) /\
  tlen (snd (set_addr_be addr len t)) = (addr + len - 1) / 4 - addr / 4 + 1.
Proof. exact set_addr_be_minimal. Qed.
Theorem C05_getters : forall addr len t, 1 <= len ->
  get_first_be_offset (snd (set_addr_be addr len t)) = addr mod 4 /\
  get_be_byte_count (snd (set_addr_be addr len t)) = len.
Proof. exact set_addr_be_getters. Qed.
Theorem C05_zero : forall addr t,
  tlen (snd (set_addr_be addr 0 t)) = 1 /\ forall a, ~ addressed (snd (set_addr_be addr 0 t)) a.
Proof. exact set_addr_be_zero. Qed.
Example C05_ex : let t := snd (set_addr_be 0x1003 6 tlp0) in
  (address t, tlen t, first_be t, last_be t) = (0x1000, 3, 8, 1).
Proof. reflexivity. Qed.

(** ** C06 *)
Theorem C06_payload : forall addr d t, d <> [] ->
  let u := set_addr_be_data addr d t in
  zlen (data u) = 4 * tlen u /\
  (forall a, addressed u a <-> addr <= a < addr + zlen d) /\
  (forall a, addr <= a < addr + zlen d ->
     nth (Z.to_nat (a - address u)) (data u) 0 = nth (Z.to_nat (a - addr)) d 0) /\
  enabled_data u = d.
Proof. exact set_addr_be_data_ok. Qed.
Theorem C06_empty : forall addr t,
  let u := set_addr_be_data addr [] t in
  data u = [0; 0; 0; 0] /\ tlen u = 1 /\ forall a, ~ addressed u a.
Proof. exact set_addr_be_data_empty. Qed.
Example C06_ex : data ex_write = [0; 1; 2; 3; 4; 5; 6; 0] /\ enabled_data ex_write = [1; 2; 3; 4; 5; 6].
Proof. split; reflexivity. Qed.

(** ** C07 *)
(** The full property is false: the offset of the first byte is lost. *)
Theorem C07_lower_address_refuted : exists addr len t, 1 <= len /\
  get_lower_address (snd (set_addr_be addr len t)) <> addr mod 128.
Proof. exists 0x1001, 3, tlp0. split; [lia|]. vm_compute. discriminate. Qed.
(** What holds: it is the low 7 bits of the DWORD address, hence right for DWORD-aligned requests.
    Missing for the full property: requests whose first byte is not DWORD aligned. *)
Theorem C07_lower_address_partial : forall addr len t, 1 <= len ->
  get_lower_address (snd (set_addr_be addr len t)) = (addr / 4 * 4) mod 128.
Proof. exact get_lower_address_value. Qed.
Theorem C07_lower_address_aligned_partial : forall addr len t, 1 <= len -> addr mod 4 = 0 ->
  get_lower_address (snd (set_addr_be addr len t)) = addr mod 128.
Proof. exact get_lower_address_aligned. Qed.
Example C07_ex : get_lower_address (snd (set_addr_be 0x1fc 3 tlp0)) = 0x7c.
Proof. reflexivity. Qed.

(** ** C08 *)
(** Every legal TLP is accepted. *)
Theorem C08_check_complete : forall ty t, fmt_type t = Ok ty -> legal ty t -> tlp_check t = Ok true.
Proof. exact check_complete. Qed.
(** The converse is false: the IO/configuration rules and the range of the length field are not
    enforced. *)
Theorem C08_check_sound_refuted : exists ty t, fmt_type t = Ok ty /\ tlp_check t = Ok true /\ ~ legal ty t.
Proof.
  exists IO_READ, (set_last_be 15 (set_tlen 2 (set_fmt_type IO_READ tlp0))).
  split; [reflexivity|]. split; [reflexivity|]. intros [_ _ L _ _].
  specialize (L ltac:(cbn; auto 10)). cbn in L. lia.
Qed.
Theorem C08_check_length_refuted : exists ty t, fmt_type t = Ok ty /\ tlp_check t = Ok true /\
  (fmt t = 2 \/ fmt t = 3) /\ 1024 < tlen t.
Proof. exact check_length_refuted. Qed.
(** What holds.  Missing: IO and configuration requests, payloads above 4096 bytes. *)
Theorem C08_check_sound_partial : forall ty t, fmt_type t = Ok ty -> tlp_check t = Ok true ->
  ~ In ty [CFG_READ_0; CFG_WRITE_0; CFG_READ_1; CFG_WRITE_1; IO_READ; IO_WRITE] ->
  zlen (data t) <= 4096 -> legal ty t.
Proof. exact check_sound. Qed.
Example C08_ex : tlp_check ex_write = Ok true /\ tlp_check (set_tlen 3 ex_write) = Ok false /\
  tlp_check (set_address 0xffc (set_fmt_type MEM_READ ex_write)) = Ok false.
Proof. repeat split; reflexivity. Qed.

Print Assumptions C01_roundtrip.
Print Assumptions C01_roundtrip_equal.
Print Assumptions C01_eq_meaning.
Print Assumptions C41_size.
Print Assumptions C41_credits.
Print Assumptions C41_has_data.
Print Assumptions C41_fc_type.
Print Assumptions C01_layout.
Print Assumptions C01_reject.
Print Assumptions C01_reject_unknown.
Print Assumptions C01_ur_completion_refuted.
Print Assumptions C01_copy_refuted.
Print Assumptions C02_canonical.
Print Assumptions C02_injective.
Print Assumptions C05_bytes.
Print Assumptions C05_minimal.
Print Assumptions C05_getters.
Print Assumptions C05_zero.
Print Assumptions C06_payload.
Print Assumptions C06_empty.
Print Assumptions C07_lower_address_refuted.
Print Assumptions C07_lower_address_partial.
Print Assumptions C07_lower_address_aligned_partial.
Print Assumptions C08_check_complete.
Print Assumptions C08_check_sound_refuted.
Print Assumptions C08_check_length_refuted.
Print Assumptions C08_check_sound_partial.
