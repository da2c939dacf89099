From Verif Require Import Base BaseProofs ModelUtils ModelTlp SpecTlp ModelFrames SpecParity ProofsParity ModelUs SpecUs ProofsUs.

(** * C36 UltraScale descriptors *)

(** Unpacking what was packed gives the TLP in all the fields the interface carries, with and without parity checking.  Requests
    with 4 DW headers must have an address of at least 4 GiB (as PCIe demands); tags have 8 bits; the target function of a
    completer request is below 8. *)
Theorem C36_cq ty k u chk : us_common ty (u_tlp u) -> us_mem_req ty k (u_tlp u) ->
  0 <= func (completer_id (u_tlp u)) < 8 -> 0 <= bar_id u < 8 -> 0 <= bar_aperture u < 64 ->
  exists f, pack_us_cq u = Ok f /\ unpack_us_cq chk f = Ok (carried_cq u).
Proof. exact (cq_round ty k u chk). Qed.
Theorem C36_cc ty u chk : us_common ty (u_tlp u) -> us_cpl ty (u_tlp u) -> 0 <= lower_address (u_tlp u) < 128 ->
  (at_ (u_tlp u) = 0 \/ at_ (u_tlp u) = 1 \/ at_ (u_tlp u) = 2) ->
  exists f, pack_us_cc u = Ok f /\ unpack_us_cc chk f = Ok (carried_cc u).
Proof. exact (cc_round ty u chk). Qed.
Theorem C36_rq ty k u chk : us_common ty (u_tlp u) -> us_mem_req ty k (u_tlp u) -> id_range (completer_id (u_tlp u)) ->
  exists f, pack_us_rq u = Ok f /\ unpack_us_rq chk f = Ok (carried_rq u).
Proof. exact (rq_round_mem ty k u chk). Qed.
Theorem C36_rq_cfg ty u chk : us_common ty (u_tlp u) -> us_cfg_req ty (u_tlp u) -> id_range (completer_id (u_tlp u)) ->
  exists f, pack_us_rq u = Ok f /\ unpack_us_rq chk f = Ok (carried_rq u).
Proof. exact (rq_round_cfg ty u chk). Qed.
Theorem C36_rc ty u chk : us_common ty (u_tlp u) -> us_cpl ty (u_tlp u) -> 0 <= lower_address (u_tlp u) < 4096 -> 0 <= error_code u < 16 ->
  exists f, pack_us_rc u = Ok f /\ unpack_us_rc chk f = Ok (carried_rc u).
Proof. exact (rc_round ty u chk). Qed.

(** Every field is where the data sheet says, and the payload follows the descriptor. *)
Theorem C36_cq_layout ty k u : us_common ty (u_tlp u) -> us_mem_req ty k (u_tlp u) ->
  0 <= func (completer_id (u_tlp u)) < 8 -> 0 <= bar_id u < 8 -> 0 <= bar_aperture u < 64 ->
  exists f pl, pack_us_cq u = Ok f /\ layout_cq ty u f /\ us_data f = firstn 4 (us_data f) ++ pl /\ word_bytes_at (data (u_tlp u)) pl.
Proof. exact (cq_layout ty k u). Qed.
Theorem C36_cc_layout ty u : us_common ty (u_tlp u) -> us_cpl ty (u_tlp u) -> 0 <= lower_address (u_tlp u) < 128 -> 0 <= at_ (u_tlp u) < 4 ->
  exists f pl, pack_us_cc u = Ok f /\ layout_cc ty u f /\ us_data f = firstn 3 (us_data f) ++ pl /\ word_bytes_at (data (u_tlp u)) pl.
Proof. exact (cc_layout ty u). Qed.
Theorem C36_rq_layout ty u : us_common ty (u_tlp u) -> (us_cfg_req ty (u_tlp u) \/ exists k, us_mem_req ty k (u_tlp u)) -> id_range (completer_id (u_tlp u)) ->
  exists f pl, pack_us_rq u = Ok f /\ layout_rq ty u f /\ us_data f = firstn 4 (us_data f) ++ pl /\ word_bytes_at (data (u_tlp u)) pl.
Proof. exact (rq_layout ty u). Qed.
Theorem C36_rc_layout ty u : us_common ty (u_tlp u) -> us_cpl ty (u_tlp u) -> 0 <= lower_address (u_tlp u) < 4096 -> 0 <= error_code u < 16 ->
  exists f pl, pack_us_rc u = Ok f /\ layout_rc ty u f /\ us_data f = firstn 3 (us_data f) ++ pl /\ word_bytes_at (data (u_tlp u)) pl.
Proof. exact (rc_layout ty u). Qed.

(** The byte enables on CQ: none for the descriptor, then first, all, ..., all, last. *)
Theorem C36_cq_be ty k u f i : us_common ty (u_tlp u) -> us_mem_req ty k (u_tlp u) -> pack_us_cq u = Ok f ->
  zlen (us_byte_en f) = 4 + zlen (data (u_tlp u)) / 4 /\
  (0 <= i < 4 -> nth (Z.to_nat i) (us_byte_en f) 0 = 0) /\
  (0 <= i < zlen (data (u_tlp u)) / 4 -> nth (Z.to_nat (4 + i)) (us_byte_en f) 0 =
     if i =? 0 then first_be (u_tlp u) else if i =? zlen (data (u_tlp u)) / 4 - 1 then last_be (u_tlp u) else 15).
Proof. exact (cq_be ty k u f i). Qed.
(** The byte enables on RC mark exactly the bytes of the payload that were asked for: those from the lower address on, as many as
    the byte count says. *)
Theorem C36_rc_be ty u f : us_common ty (u_tlp u) -> us_cpl ty (u_tlp u) -> 0 <= lower_address (u_tlp u) < 4096 -> pack_us_rc u = Ok f ->
  let t := u_tlp u in
  zlen (us_byte_en f) = 3 + tlen t /\ (forall i j, 0 <= i < 3 -> be_bit f i j = false) /\
  (4 * (tlen t - 1) < lower_address t mod 4 + byte_count t -> forall i j, 0 <= i < tlen t -> 0 <= j < 4 ->
     be_bit f (3 + i) j = (lower_address t mod 4 <=? 4 * i + j) && (4 * i + j <? lower_address t mod 4 + byte_count t)).
Proof. exact (rc_be ty u f). Qed.

(** A frame with wrong parity is never accepted on CC, RQ and RC. *)
Theorem C36_parity f : us_check_parity f = false -> raises (unpack_us_cc true f) /\ raises (unpack_us_rq true f) /\ raises (unpack_us_rc true f).
Proof. intros P. exact (conj (cc_bad f P) (conj (rq_bad f P) (rc_bad f P))). Qed.
(** So changed parity bits, and changes of an odd number of bits of a byte, are detected in all packed TLPs. *)
Theorem C36_parity_packed u f : pack_us_cc u = Ok f \/ pack_us_rq u = Ok f \/ pack_us_rc u = Ok f ->
  (forall p, p <> us_parity f -> let g := with_us (us_data f) p f in
     raises (unpack_us_cc true g) /\ raises (unpack_us_rq true g) /\ raises (unpack_us_rc true g)) /\
  (forall i e d, nth_error (us_data f) i = Some d -> odd_flip e -> let g := with_us (flip i e (us_data f)) (us_parity f) f in
     raises (unpack_us_cc true g) /\ raises (unpack_us_rq true g) /\ raises (unpack_us_rc true g)).
Proof.
  intros P. pose proof (pack_parity u f P) as Q. split.
  - intros p H g. exact (C36_parity g (us_detect_par f p Q H)).
  - intros i e d H O g. exact (C36_parity g (us_detect f i d e Q H O)).
Qed.
(** On CQ this holds with one exception: bit 14 of DWORD 2 turns the request into a configuration request. *)
Theorem C36_cq_parity_bits ty k u f p : us_common ty (u_tlp u) -> us_mem_req ty k (u_tlp u) -> pack_us_cq u = Ok f -> p <> us_parity f ->
  raises (unpack_us_cq true (with_us (us_data f) p f)).
Proof. exact (cq_corrupt_par ty k u f p). Qed.
Theorem C36_cq_parity_partial ty k u f i e d : us_common ty (u_tlp u) -> us_mem_req ty k (u_tlp u) -> pack_us_cq u = Ok f ->
  nth_error (us_data f) i = Some d -> odd_flip e -> (i = 2%nat -> Z.testbit e 14 = false) ->
  raises (unpack_us_cq true (with_us (flip i e (us_data f)) (us_parity f) f)).
Proof. exact (cq_corrupt ty k u f i e d). Qed.

(** Other types are refused. *)
Theorem C36_reject ty u : fmt_type (u_tlp u) = Ok ty ->
  (kind_of ty <> Some KReq32 -> kind_of ty <> Some KReq64 -> pack_us_cq u = Err PyException /\ (kind_of ty <> Some KCfg -> pack_us_rq u = Err PyException)) /\
  (kind_of ty <> Some KCpl -> pack_us_cc u = Err PyException /\ pack_us_rc u = Err PyException).
Proof.
  intros E. unfold pack_us_cq, pack_us_rq, pack_us_cc, pack_us_rc. rewrite E. cbn [bind].
  destruct ty; cbn; split; intros; try congruence; split; intros; try congruence; reflexivity.
Qed.

(** ** Examples *)
Definition ex_mem : tlp_us :=
  mkTlpUs (set_data [1; 2; 3; 4; 5; 6; 7; 8; 9; 10; 11; 12] (set_tlen 3 (set_address 0x123456789abcdef0 (set_last_be 7 (set_first_be 14 (set_at_ 2 (set_attr 5
    (set_tc 3 (set_tag 0x5a (set_requester_id (mkId 1 2 3) (set_completer_id (mkId 4 5 6) (set_fmt_type MEM_WRITE_64 tlp0)))))))))))) 2 12 true true false 9 0 0.
Lemma ex_common : us_common MEM_WRITE_64 (u_tlp ex_mem).
Proof. split; cbn; try lia; try reflexivity; try (repeat constructor; cbn; lia). Qed.
Lemma ex_req : us_mem_req MEM_WRITE_64 KReq64 (u_tlp ex_mem).
Proof. split; cbn; try lia; try reflexivity. Qed.
Example C36_cq_ex : exists f, pack_us_cq ex_mem = Ok f /\ length (us_data f) = 7%nat /\ us_byte_en f = [0; 0; 0; 0; 14; 15; 7] /\ unpack_us_cq true f = Ok (carried_cq ex_mem) /\
  u_tlp (carried_cq ex_mem) <> u_tlp ex_mem /\ address (u_tlp (carried_cq ex_mem)) = 0x123456789abcdef0.
Proof. eexists. split; [vm_compute; reflexivity|]. repeat split; try (vm_compute; reflexivity). vm_compute. discriminate. Qed.
Example C36_rq_ex : exists f, pack_us_rq ex_mem = Ok f /\ us_seq f = 9 /\ unpack_us_rq true f = Ok (carried_rq ex_mem) /\ rid_enable (carried_rq ex_mem) = true.
Proof. eexists. split; [vm_compute; reflexivity|]. repeat split; vm_compute; reflexivity. Qed.
Definition ex_cfg : tlp_us :=
  mkTlpUs (set_data [1; 2; 3; 4] (set_tlen 1 (set_address 0x104 (set_first_be 15 (set_tag 7 (set_completer_id (mkId 1 0 0) (set_fmt_type CFG_WRITE_0 tlp0))))))) 0 0 false false false 0 0 0.
Example C36_rq_cfg_ex : us_common CFG_WRITE_0 (u_tlp ex_cfg) /\ us_cfg_req CFG_WRITE_0 (u_tlp ex_cfg) /\ id_range (completer_id (u_tlp ex_cfg)) /\
  exists f, pack_us_rq ex_cfg = Ok f /\ us_data f = [0x104; 0; 0x5001; 0x10007; 0x04030201] /\ pack_us_cq ex_cfg = Err PyException.
Proof.
  split; [split; cbn; try lia; try reflexivity; repeat constructor; cbn; lia|]. split; [split; cbn; try lia; reflexivity|]. split; [repeat split; cbn; lia|].
  eexists. split; [vm_compute; reflexivity|]. split; reflexivity.
Qed.
Definition ex_cpl : tlp_us :=
  mkTlpUs (set_data [1; 2; 3; 4; 5; 6; 7; 8] (set_tlen 2 (set_byte_count 5 (set_lower_address 0x42 (set_tag 7 (set_requester_id (mkId 1 2 3) (set_completer_id (mkId 1 0 0)
    (set_fmt_type CPL_DATA tlp0)))))))) 0 0 true false false 0 3 1.
Lemma ex_cpl_common : us_common CPL_DATA (u_tlp ex_cpl).
Proof. split; cbn; try lia; try reflexivity; try (repeat constructor; cbn; lia). Qed.
Lemma ex_cpl_ok : us_cpl CPL_DATA (u_tlp ex_cpl).
Proof. split; cbn; try lia; try reflexivity. repeat split; cbn; lia. Qed.
Example C36_cc_ex : exists f, pack_us_cc ex_cpl = Ok f /\ us_data f = [0x50042; 0x01130002; 0x01010007; 0x04030201; 0x08070605] /\ unpack_us_cc true f = Ok (carried_cc ex_cpl).
Proof. eexists. split; [vm_compute; reflexivity|]. split; vm_compute; reflexivity. Qed.
(** Bytes 2 to 6 of the two words are valid. *)
Example C36_rc_ex : exists f, pack_us_rc ex_cpl = Ok f /\ us_byte_en f = [0; 0; 0; 12; 7] /\ unpack_us_rc true f = Ok (carried_rc ex_cpl) /\
  request_completed (carried_rc ex_cpl) = 0x40000000 /\ raises (unpack_us_rc true (with_us (flip 3 0x100 (us_data f)) (us_parity f) f)).
Proof.
  eexists. split; [vm_compute; reflexivity|]. split; [reflexivity|]. split; [vm_compute; reflexivity|]. split; [reflexivity|]. eexists; vm_compute; reflexivity.
Qed.
(** ** Counterexamples *)
(** A flipped bit on CQ that parity checking does not notice: the memory write comes back as a configuration read. *)
Theorem C36_cq_parity_refuted : exists u f i b u', pack_us_cq u = Ok f /\ us_check_parity f = true /\ us_common MEM_WRITE_64 (u_tlp u) /\ us_mem_req MEM_WRITE_64 KReq64 (u_tlp u) /\
  us_check_parity (with_us (flip i (2 ^ b) (us_data f)) (us_parity f) f) = false /\
  unpack_us_cq true (with_us (flip i (2 ^ b) (us_data f)) (us_parity f) f) = Ok u' /\ fmt_type (u_tlp u') = Ok CFG_READ_1.
Proof.
  exists ex_mem. eexists. exists 2%nat, 14. eexists. split; [vm_compute; reflexivity|]. split; [vm_compute; reflexivity|]. split; [exact ex_common|]. split; [exact ex_req|].
  split; [vm_compute; reflexivity|]. split; vm_compute; reflexivity.
Qed.
(** The copy constructor compares [request_completed] instead of copying it. *)
Theorem C36_copy_refuted : exists u, request_completed (tlp_us_copy u) <> request_completed u.
Proof. exists ex_cpl. discriminate. Qed.
(** [request_completed] is not what was packed but the bit in its place. *)
Theorem C36_request_completed_refuted : exists u f u', pack_us_rc u = Ok f /\ unpack_us_rc true f = Ok u' /\ request_completed u' <> request_completed u.
Proof. exists ex_cpl. eexists. eexists. split; [vm_compute; reflexivity|]. split; [vm_compute; reflexivity|]. discriminate. Qed.

Print Assumptions C36_cq.
Print Assumptions C36_cc.
Print Assumptions C36_rq.
Print Assumptions C36_rq_cfg.
Print Assumptions C36_rc.
Print Assumptions C36_cq_layout.
Print Assumptions C36_cc_layout.
Print Assumptions C36_rq_layout.
Print Assumptions C36_rc_layout.
Print Assumptions C36_cq_be.
Print Assumptions C36_rc_be.
Print Assumptions C36_parity.
Print Assumptions C36_parity_packed.
Print Assumptions C36_cq_parity_bits.
Print Assumptions C36_cq_parity_partial.
Print Assumptions C36_reject.
Print Assumptions C36_cq_parity_refuted.
Print Assumptions C36_copy_refuted.
Print Assumptions C36_request_completed_refuted.
