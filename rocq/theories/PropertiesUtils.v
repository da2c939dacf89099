(** C35: bit utilities. *)
From Verif Require Import Base ModelUtils SpecUtils ProofsUtils.

(** [align(v, 2^k-1)] is the least multiple of 2^k not below v, for all integers. *)
Theorem C35_align : forall v k, 0 <= k -> least_multiple_above (2 ^ k) v (align v (2 ^ k - 1)).
Proof. exact align_spec. Qed.
Example C35_align_ex : align 0x1001 (2 ^ 12 - 1) = 0x2000 /\ align 0x3000 (2 ^ 12 - 1) = 0x3000.
Proof. split; reflexivity. Qed.

Theorem C35_align_id : forall v k, 0 <= k -> (2 ^ k | v) -> align v (2 ^ k - 1) = v.
Proof. exact align_id. Qed.

(** Bit level: byte lane [i/8] of the mask and bit [i] of the bit mask select the new bit. *)
Theorem C35_byte_mask_update : forall old mask new bm i, 0 <= mask -> 0 <= i ->
  Z.testbit (byte_mask_update old mask new bm) i =
    if Z.testbit mask (i / 8) && Z.testbit bm i then Z.testbit new i else Z.testbit old i.
Proof. exact byte_mask_update_spec. Qed.
(** Byte level, with the default bit mask. *)
Theorem C35_byte_mask_update_bytes : forall old mask new i, 0 <= mask -> 0 <= i ->
  byte_at (byte_mask_update old mask new (-1)) i = if Z.testbit mask i then byte_at new i else byte_at old i.
Proof. exact byte_mask_update_bytes. Qed.
Example C35_byte_mask_update_ex :
  byte_mask_update 0x11223344 0x5 0xaabbccdd (-1) = 0x11bb33dd /\
  byte_mask_update 0x11223344 0xf 0xffffffff 0x00ff0f00 = 0x11ff3f44.
Proof. split; reflexivity. Qed.

(** [PcieId]: construction succeeds exactly for components in range; conversion to and from the
    16 bit form loses nothing. *)
Theorem C35_id_construct : forall b d f,
  pcie_id_new b d f =
    if (0 <=? b) && (b <=? 255) && (0 <=? d) && (d <=? 31) && (0 <=? f) && (f <=? 7)
    then Ok (mkId b d f) else Err ValueError.
Proof. exact pcie_id_new_value. Qed.
Theorem C35_id_roundtrip_int : forall v, 0 <= v < 65536 ->
  exists i, pcie_id_from_int v = Ok i /\ id_int i = v.
Proof. exact id_roundtrip_int. Qed.
Theorem C35_id_roundtrip : forall b d f i, pcie_id_new b d f = Ok i ->
  id_int i = 256 * b + 8 * d + f /\ pcie_id_from_int (id_int i) = Ok i.
Proof. exact id_roundtrip. Qed.
Example C35_id_ex : pcie_id_new 0x12 0x1f 7 = Ok (mkId 0x12 0x1f 7) /\ id_int (mkId 0x12 0x1f 7) = 0x12ff
  /\ pcie_id_new 0 32 0 = Err ValueError.
Proof. repeat split; reflexivity. Qed.

Print Assumptions C35_align.
Print Assumptions C35_align_id.
Print Assumptions C35_byte_mask_update.
Print Assumptions C35_byte_mask_update_bytes.
Print Assumptions C35_id_construct.
Print Assumptions C35_id_roundtrip_int.
Print Assumptions C35_id_roundtrip.
