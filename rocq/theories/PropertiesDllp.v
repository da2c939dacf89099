(** C03, C04: data link layer packets. *)
From Verif Require Import Base BaseProofs ModelTlp ModelDllp SpecDllp ProofsDllp.

Definition ex_ack : dllp := create_ack 0xabd.
Definition ex_fc : dllp := mkDllp D_UPDATE_FC_NP 0 3 2 0x5a 1 0xc3f 0 false.
Lemma ex_ack_fits : dfits DAckNak ex_ack.
Proof. split; cbn; auto; lia. Qed.
Lemma ex_fc_fits : dfits DFc ex_fc.
Proof. split; cbn; auto; lia. Qed.

(** ** C03 *)
(** Packing succeeds, places the fields as specified and is undone by unpacking. *)
Theorem C03_roundtrip : forall k d, dfits k d ->
  exists p, d_pack d = Ok p /\ bytes_ok p /\ length p = 4%nat /\ dlayout k d (from_be p) /\ d_unpack p = Ok d.
Proof. exact d_roundtrip. Qed.
Theorem C03_roundtrip_crc : forall k d, dfits k d ->
  exists p, d_pack_crc d = Ok p /\ bytes_ok p /\ length p = 6%nat /\ crc16 p = 0x556f /\ d_unpack_crc p = Ok d.
Proof. exact d_pack_crc_ok. Qed.
(** Types without a layout raise. *)
Theorem C03_reject : forall d, dkind_of (d_type d) = None -> In (d_type d) dllp_types -> d_pack d = Err PyException.
Proof. exact d_pack_rejects. Qed.
(** Decoding is canonical: whatever is accepted packs to the same bytes with the reserved bits cleared. *)
Theorem C03_canonical : forall p d, bytes_ok p -> d_unpack p = Ok d ->
  exists k, dfits k d /\ d_pack d = Ok (be_bytes 4 (Z.land (from_be (firstn 4 p)) (Z.lnot (dreserved k)))).
Proof. exact d_unpack_inv. Qed.
Theorem C03_eq_meaning : forall a b, d_eqb a b = true <-> a = b.
Proof. exact d_eqb_iff. Qed.
Example C03_ex : dfits DFc ex_fc /\ d_pack_crc ex_fc = Ok [0x93; 0x96; 0x9c; 0x3f; 0xbc; 0x50].
Proof. split; [exact ex_fc_fits|vm_compute; reflexivity]. Qed.

(** ** C04 *)
(** All errors of one to four bits, wherever they are. *)
Theorem C04_few_bits : forall k d p l, dfits k d -> d_pack_crc d = Ok p ->
  Forall (fun x => 0 <= x < 48) l -> NoDup l -> (1 <= length l <= 4)%nat ->
  d_unpack_crc (corrupt (error_at l) p) = Err PyException.
Proof. exact d_few_bits. Qed.
(** All bursts: every error whose bits lie within 16 consecutive bits. *)
Theorem C04_burst : forall k d p b i, dfits k d -> d_pack_crc d = Ok p ->
  0 < b < 2 ^ 16 -> 0 <= i -> b * 2 ^ i < 2 ^ 48 ->
  d_unpack_crc (corrupt (b * 2 ^ i) p) = Err PyException.
Proof. exact d_burst. Qed.
(** Truncated or extended packets. *)
Theorem C04_length : forall p, length p <> 6%nat -> d_unpack_crc p = Err PyException.
Proof. exact d_unpack_crc_length. Qed.
Example C04_ex : exists p, d_pack_crc ex_ack = Ok p /\
  corrupt (error_at [0; 9; 17; 47]) p = [1; 2; 8; 0xbd; 0x31; 0x36] /\
  d_unpack_crc (corrupt (error_at [0; 9; 17; 47]) p) = Err PyException.
Proof. eexists. split; [vm_compute; reflexivity|]. split; vm_compute; reflexivity. Qed.
(** The bounds are sharp: there is a five bit error (an odd number) that turns a valid acknowledgement
    into a different one. *)
Theorem C04_odd_refuted : exists d p l e, dfits DAckNak d /\ d_pack_crc d = Ok p /\
  Forall (fun x => 0 <= x < 48) l /\ NoDup l /\ length l = 5%nat /\
  d_unpack_crc (corrupt (error_at l) p) = Ok e /\ d_eqb e d = false.
Proof.
  exists ex_ack. eexists. exists [8; 12; 21; 23; 24]. eexists.
  split; [exact ex_ack_fits|]. split; [vm_compute; reflexivity|]. split; [repeat apply Forall_cons; try lia; apply Forall_nil|].
  split; [repeat (apply NoDup_cons; [cbn [In]; lia|]); apply NoDup_nil|]. split; [reflexivity|].
  split; [vm_compute; reflexivity|]. reflexivity.
Qed.

Print Assumptions C03_roundtrip.
Print Assumptions C03_roundtrip_crc.
Print Assumptions C03_reject.
Print Assumptions C03_canonical.
Print Assumptions C03_eq_meaning.
Print Assumptions C04_few_bits.
Print Assumptions C04_burst.
Print Assumptions C04_length.
Print Assumptions C04_odd_refuted.
