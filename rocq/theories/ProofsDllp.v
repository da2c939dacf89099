(** Lemmas about DLLPs and the CRC. *)
From Verif Require Import Base BaseProofs Bits ModelUtils ModelTlp ModelDllp SpecTlp SpecDllp ProofsUtils ProofsTlp ProofsTlpCodec.
From Coq Require Import FMapPositive.

(** * Codec *)
Lemma dkind_cases ty k : dkind_of ty = Some k -> 
  match k with
  | DAckNak => In ty [0x00; 0x10]
  | DPlain => In ty [0x31; 0x20; 0x21; 0x23; 0x24]
  | DFeature => In ty [0x02]
  | DFc => In ty [0x40; 0x50; 0x60; 0xc0; 0xd0; 0xe0; 0x80; 0x90; 0xa0]
  end.
Proof.
  unfold dkind_of. intros H.
  repeat match goal with
  | H : (match ?x with _ => _ end) = Some _ |- _ => destruct x; try discriminate H
  end; injection H as <-; cbn; auto 12.
Qed.

Ltac in_cases H := unfold d_seq_types, d_plain_types, d_fc_types, dllp_types in H; cbn [In] in H; repeat match type of H with _ \/ _ => destruct H as [H|H] end; try contradiction.

Definition dword_of (k : dkind) (d : dllp) : Z :=
  match k with
  | DAckNak => Z.lor (Z.shiftl (Z.land (d_type d) 0xff) 24) (Z.land (d_seq d) 0xfff)
  | DPlain => Z.shiftl (Z.land (d_type d) 0xff) 24
  | DFeature =>
    Z.lor (Z.lor (Z.shiftl (Z.land (d_type d) 0xff) 24) (Z.land (d_feature_support d) 0x7fffff)) (Z.shiftl (Z.b2z (d_feature_ack d)) 23)
  | DFc => Z.lor (Z.lor (Z.lor (Z.lor (Z.lor (Z.shiftl (Z.land (d_type d) 0xff) 24)
       (Z.shiftl (Z.land (d_vc d) 7) 24)) (Z.land (d_data_fc d) 0xfff))
       (Z.shiftl (Z.land (d_data_scale d) 3) 12)) (Z.shiftl (Z.land (d_hdr_fc d) 0xff) 14)) (Z.shiftl (Z.land (d_hdr_scale d) 3) 22)
  end.

Lemma dword_of_bound k d : 0 <= dword_of k d < 2 ^ 32.
Proof. destruct k; unfold dword_of; bits. Qed.

Lemma d_pack_value k d : dkind_of (d_type d) = Some k -> d_pack d = Ok (be_bytes 4 (dword_of k d)).
Proof.
  intros H. rewrite <- struct_pack_be_ok by (apply dword_of_bound).
  apply dkind_cases in H. unfold d_pack, dword_of. destruct d as [ty sq vc hs hf ds df fs fa].
  cbn [d_type d_seq d_vc d_hdr_scale d_hdr_fc d_data_scale d_data_fc d_feature_support d_feature_ack] in *.
  destruct k; in_cases H; subst ty; reflexivity.
Qed.

Lemma d_pack_rejects d : dkind_of (d_type d) = None -> In (d_type d) dllp_types -> d_pack d = Err PyException.
Proof.
  intros H I. unfold d_pack. unfold dllp_types in I. in_cases I; rewrite <- I in *; try discriminate H; reflexivity.
Qed.

Lemma d_type_of_dword k d ty : dkind_of (d_type d) = Some k -> d_type d = ty ->
  match k with DFc => True | _ => Z.land (Z.shiftr (dword_of k d) 24) 0xff = ty end.
Proof.
  intros H <-. apply dkind_cases in H. unfold dword_of.
  destruct d as [t sq vc hs hf ds df fs fa]; cbn [d_type d_seq d_feature_support d_feature_ack] in *.
  destruct k; [| | |exact I]; in_cases H; subst t; bits.
Qed.

Lemma d_unpack_dword v post : 0 <= v < 2 ^ 32 ->
  struct_unpack_be 4 (be_bytes 4 v ++ post) 0 = Ok v.
Proof. intros H. apply (struct_unpack_be_at 4 [] post v). exact H. Qed.

Lemma zmem_In x l : zmem x l = true <-> In x l.
Proof.
  unfold zmem. rewrite existsb_exists. split.
  - intros (y & I & E). apply Z.eqb_eq in E. subst. exact I.
  - intros I. exists x. split; [exact I|apply Z.eqb_refl].
Qed.

Definition dll_of (v : Z) : res dllp :=
  let ty := Z.land (Z.shiftr v 24) 0xff in
  if zmem ty d_seq_types then Ok (mkDllp ty (Z.land v 0xfff) 0 0 0 0 0 0 false)
  else if zmem ty d_plain_types then Ok (mkDllp ty 0 0 0 0 0 0 0 false)
  else if ty =? D_DATA_LINK_FEATURE then
    Ok (mkDllp ty 0 0 0 0 0 0 (Z.land v 0x7fffff) (Z.testbit v 23))
  else if zmem (Z.land ty 0xf8) d_fc_types then
    Ok (mkDllp (Z.land ty 0xf8) 0 (Z.land (Z.shiftr v 24) 7) (Z.land (Z.shiftr v 22) 3)
          (Z.land (Z.shiftr v 14) 0xff) (Z.land (Z.shiftr v 12) 3) (Z.land v 0xfff) 0 false)
  else Err PyException.

Lemma fc_scale_ok v : 0 <= v < 4 -> fc_scale v = Ok v.
Proof. intros H. unfold fc_scale. destruct (_ && _) eqn:E; [reflexivity|lia]. Qed.

Lemma d_unpack_dll p v : struct_unpack_be 4 p 0 = Ok v -> d_unpack p = dll_of v.
Proof.
  intros H. unfold d_unpack. rewrite H. cbn [bind]. unfold dll_of.
  rewrite !fc_scale_ok by bits. rewrite zbool_testbit by lia. cbn [bind].
  change DLLP_FC_TYPE_MASK with 0xf8. change DLLP_FC_VC_MASK with 7.
  set (ty := Z.land (Z.shiftr v 24) 0xff).
  destruct (zmem ty d_seq_types) eqn:E1; [cbn [bind d_type]|].
  { replace (zmem ty dllp_types) with true; [reflexivity|]. symmetry. apply zmem_In.
    apply zmem_In in E1. in_cases E1; rewrite <- E1; cbn; auto 30. }
  destruct (zmem ty d_plain_types) eqn:E2; [cbn [bind d_type]|].
  { replace (zmem ty dllp_types) with true; [reflexivity|]. symmetry. apply zmem_In.
    apply zmem_In in E2. in_cases E2; rewrite <- E2; cbn; auto 30. }
  destruct (ty =? D_DATA_LINK_FEATURE) eqn:E3; [cbn [bind d_type]|].
  { replace (zmem ty dllp_types) with true; [reflexivity|]. symmetry. apply zmem_In.
    apply Z.eqb_eq in E3. rewrite E3. cbn; auto 30. }
  destruct (zmem (Z.land ty 0xf8) d_fc_types) eqn:E4; [cbn [bind d_type]|reflexivity].
  replace (zmem (Z.land ty 248) dllp_types) with true; [reflexivity|]. symmetry. apply zmem_In.
  apply zmem_In in E4. in_cases E4; rewrite <- E4; cbn; auto 30.
Qed.

Lemma dll_of_dword k d : dfits k d -> dll_of (dword_of k d) = Ok d.
Proof.
  intros [K S F G]. pose proof K as K'. apply dkind_cases in K'.
  destruct d as [ty sq vc hs hf ds df fs fa].
  cbn [d_type d_seq d_vc d_hdr_scale d_hdr_fc d_data_scale d_data_fc d_feature_support d_feature_ack] in *.
  unfold dll_of. destruct k.
  - destruct F as (-> & -> & -> & -> & ->). destruct G as [-> ->].
    pose proof (d_type_of_dword DAckNak (mkDllp ty sq 0 0 0 0 0 0 false) ty K eq_refl) as T. cbn beta iota in T.
    rewrite T.
    assert (E : Z.land (dword_of DAckNak (mkDllp ty sq 0 0 0 0 0 0 false)) 4095 = sq) by (unfold dword_of; cbn [d_type d_seq]; bits).
    rewrite E. in_cases K'; subst ty; reflexivity.
  - destruct F as (-> & -> & -> & -> & ->). destruct G as [-> ->]. subst sq.
    pose proof (d_type_of_dword DPlain (mkDllp ty 0 0 0 0 0 0 0 false) ty K eq_refl) as T. cbn beta iota in T.
    rewrite T. in_cases K'; subst ty; reflexivity.
  - destruct F as (-> & -> & -> & -> & ->). subst sq.
    pose proof (d_type_of_dword DFeature (mkDllp ty 0 0 0 0 0 0 fs fa) ty K eq_refl) as T. cbn beta iota in T.
    rewrite T. 
    assert (E : Z.land (dword_of DFeature (mkDllp ty 0 0 0 0 0 0 fs fa)) 0x7fffff = fs)
      by (unfold dword_of; cbn [d_type d_feature_support d_feature_ack]; change (2 ^ 23) with 8388608 in G; bits).
    assert (E' : Z.testbit (dword_of DFeature (mkDllp ty 0 0 0 0 0 0 fs fa)) 23 = fa)
      by (unfold dword_of; cbn [d_type d_feature_support d_feature_ack]; bits).
    rewrite E, E'. in_cases K'; subst ty; reflexivity.
  - destruct F as (F1 & F2 & F3 & F4 & F5). destruct G as [-> ->]. subst sq.
    set (v := dword_of DFc _).
    assert (T : Z.land (Z.land (Z.shiftr v 24) 0xff) 0xf8 = ty).
    { unfold v, dword_of. cbn [d_type d_vc d_hdr_scale d_hdr_fc d_data_scale d_data_fc].
      in_cases K'; subst ty; bits. }
    destruct (zmem (Z.land (Z.shiftr v 24) 255) d_seq_types) eqn:E1.
    { exfalso. apply zmem_In in E1. in_cases E1; rewrite <- E1 in T; subst ty; in_cases K'; discriminate. }
    destruct (zmem (Z.land (Z.shiftr v 24) 255) d_plain_types) eqn:E2.
    { exfalso. apply zmem_In in E2. in_cases E2; rewrite <- E2 in T; subst ty; in_cases K'; discriminate. }
    destruct (Z.land (Z.shiftr v 24) 255 =? D_DATA_LINK_FEATURE) eqn:E3.
    { exfalso. apply Z.eqb_eq in E3. rewrite E3 in T; subst ty; in_cases K'; discriminate. }
    rewrite T. replace (zmem ty d_fc_types) with true.
    2:{ in_cases K'; subst ty; reflexivity. }
    f_equal. f_equal; unfold v, dword_of; cbn [d_type d_vc d_hdr_scale d_hdr_fc d_data_scale d_data_fc];
      in_cases K'; subst ty; bits.
Qed.

Lemma d_roundtrip k d : dfits k d -> 
  exists p, d_pack d = Ok p /\ bytes_ok p /\ length p = 4%nat /\ dlayout k d (from_be p) /\ d_unpack p = Ok d.
Proof.
  intros F. pose proof (df_kind _ _ F) as K. exists (be_bytes 4 (dword_of k d)).
  split; [apply d_pack_value; exact K|]. split; [apply be_bytes_ok|]. split; [apply be_bytes_length|].
  pose proof (dword_of_bound k d) as B. split.
  - rewrite from_be_be_bytes by exact B. destruct F as [_ S F G].
    apply dkind_cases in K. unfold dlayout, dword_of, flag.
    destruct k.
    + destruct d as [ty sq vc hs hf ds df fs fa]; cbn [d_type d_seq] in *.
      assert (E : Z.land sq 4095 = sq) by bits. rewrite E. rewrite lor_disjoint_add by lia.
      in_cases K; subst; reflexivity.
    + rewrite Z.shiftl_mul_pow2 by lia. in_cases K; rewrite <- K; reflexivity.
    + destruct d as [ty sq vc hs hf ds df fs fa]; cbn [d_type d_feature_support d_feature_ack] in *. 
      change (2 ^ 23) with 8388608 in *.
      assert (E : Z.land fs 0x7fffff = fs) by bits. rewrite E.
      rewrite <- Z.lor_assoc, (Z.lor_comm fs), (lor_disjoint_add _ fs) by lia.
      change (2 ^ 23) with 8388608 in *.
      rewrite lor_disjoint_add by (destruct fa; cbn [Z.b2z]; lia).
      change (2 ^ 24) with 16777216.
      in_cases K; subst; destruct fa; cbn [Z.b2z]; change (Z.land 2 255) with 2; lia.
    + destruct d as [ty sq vc hs hf ds df fs fa]; cbn [d_type d_vc d_hdr_scale d_hdr_fc d_data_scale d_data_fc] in *.
      destruct F as (F1 & F2 & F3 & F4 & F5).
      assert (E1 : Z.land vc 7 = vc) by bits. assert (E2 : Z.land hs 3 = hs) by bits.
      assert (E3 : Z.land hf 255 = hf) by bits. assert (E4 : Z.land ds 3 = ds) by bits.
      assert (E5 : Z.land df 4095 = df) by bits.
      rewrite E1, E2, E3, E4, E5.
      assert (T : exists a, 0 <= a < 32 /\ ty = a * 8) by (exists (ty / 8); in_cases K; subst; cbn; lia).
      destruct T as (a & Ba & ->).
      replace (Z.lor _ (Z.shiftl hs 22)) with
        (Z.lor (Z.shiftl (Z.lor (Z.shiftl a 3) vc) 24) (Z.lor (Z.shiftl hs 22) (Z.lor (Z.shiftl hf 14) (Z.lor (Z.shiftl ds 12) df)))).
      2:{ replace (a * 8) with (Z.shiftl a 3) by (rewrite Z.shiftl_mul_pow2 by lia; reflexivity). bits. }
      rewrite (lor_disjoint_add ds) by lia.
      change (2 ^ 12) with 4096. rewrite (lor_disjoint_add hf) by lia.
      change (2 ^ 14) with 16384. rewrite (lor_disjoint_add hs) by lia.
      change (2 ^ 22) with 4194304. rewrite lor_disjoint_add by lia.
      rewrite lor_disjoint_add by lia. change (2 ^ 3) with 8. lia.
  - rewrite (d_unpack_dll _ (dword_of k d)); [apply dll_of_dword; exact F|].
    rewrite <- (app_nil_r (be_bytes 4 _)). apply d_unpack_dword. exact B.
Qed.

Lemma dll_of_inv v d : 0 <= v < 2 ^ 32 -> dll_of v = Ok d ->
  exists k, dfits k d /\ dword_of k d = Z.land v (Z.lnot (dreserved k)).
Proof.
  intros B H. unfold dll_of in H. change (2 ^ 32) with 4294967296 in B.
  destruct (zmem (Z.land (Z.shiftr v 24) 255) d_seq_types) eqn:E1.
  { apply Ok_inj in H. subst d. exists DAckNak. split.
    - split; cbn [d_type d_seq d_vc d_hdr_scale d_hdr_fc d_data_scale d_data_fc d_feature_support d_feature_ack]; auto; try bits.
      apply zmem_In in E1. in_cases E1; rewrite <- E1; reflexivity.
    - unfold dword_of, dreserved. cbn [d_type d_seq]. bits. }
  destruct (zmem (Z.land (Z.shiftr v 24) 255) d_plain_types) eqn:E2.
  { apply Ok_inj in H. subst d. exists DPlain. split.
    - split; cbn [d_type d_seq d_vc d_hdr_scale d_hdr_fc d_data_scale d_data_fc d_feature_support d_feature_ack]; auto; try bits.
      apply zmem_In in E2. in_cases E2; rewrite <- E2; reflexivity.
    - unfold dword_of, dreserved. cbn [d_type d_seq]. bits. }
  destruct (Z.land (Z.shiftr v 24) 255 =? D_DATA_LINK_FEATURE) eqn:E3.
  { apply Ok_inj in H. subst d. exists DFeature. split.
    - split; cbn [d_type d_seq d_vc d_hdr_scale d_hdr_fc d_data_scale d_data_fc d_feature_support d_feature_ack]; auto.
      + apply Z.eqb_eq in E3. rewrite E3. reflexivity.
      + change (2 ^ 23) with 8388608. bits.
    - unfold dword_of, dreserved. cbn [d_type d_feature_support d_feature_ack]. bits. }
  destruct (zmem (Z.land (Z.land (Z.shiftr v 24) 255) 248) d_fc_types) eqn:E4; [|discriminate].
  apply Ok_inj in H. subst d. exists DFc. split.
  - split; cbn [d_type d_seq d_vc d_hdr_scale d_hdr_fc d_data_scale d_data_fc d_feature_support d_feature_ack]; auto.
    + apply zmem_In in E4. in_cases E4; rewrite <- E4; reflexivity.
    + split; [|split; [|split; [|split]]]; bits.
  - unfold dword_of, dreserved. cbn [d_type d_vc d_hdr_scale d_hdr_fc d_data_scale d_data_fc]. bits.
Qed.

Lemma d_unpack_inv p d : bytes_ok p -> d_unpack p = Ok d ->
  exists k, dfits k d /\ d_pack d = Ok (be_bytes 4 (Z.land (from_be (firstn 4 p)) (Z.lnot (dreserved k)))).
Proof.
  intros B H. destruct (struct_unpack_be 4 p 0) as [v|e] eqn:E.
  2:{ unfold d_unpack in H. rewrite E in H. discriminate. }
  rewrite (d_unpack_dll p v E) in H.
  assert (V : v = from_be (firstn 4 p)).
  { unfold struct_unpack_be in E. destruct (_ <=? _)%nat; [|discriminate]. apply Ok_inj in E. symmetry. exact E. }
  assert (Bv : 0 <= v < 2 ^ 32).
  { unfold struct_unpack_be in E. destruct (_ <=? _)%nat eqn:L; [|discriminate].
    subst v. pose proof (from_be_bound (firstn 4 p) ltac:(apply bytes_ok_firstn; exact B)) as X.
    assert (zlen (firstn 4 p) = 4) as Z4 by (unfold zlen; rewrite firstn_length; lia).
    rewrite Z4 in X. exact X. }
  destruct (dll_of_inv v d Bv H) as (k & F & W). exists k. split; [exact F|].
  rewrite (d_pack_value k d (df_kind _ _ F)), W, V. reflexivity.
Qed.

(** * The CRC as a linear map on the bits in transmission order *)
Lemma crc_step_xor poly x : crc_step poly x = Z.lxor (Z.shiftr x 1) (if Z.testbit x 0 then poly else 0).
Proof.
  unfold crc_step. change 1 with (Z.shiftl 1 0) at 1. rewrite zbool_testbit by lia.
  destruct (Z.testbit x 0); [reflexivity|]. rewrite Z.lxor_0_r. reflexivity.
Qed.
Lemma shiftr_lxor a b n : Z.shiftr (Z.lxor a b) n = Z.lxor (Z.shiftr a n) (Z.shiftr b n).
Proof. apply Z.shiftr_lxor. Qed.
Lemma crc_step_linear poly a b : crc_step poly (Z.lxor a b) = Z.lxor (crc_step poly a) (crc_step poly b).
Proof.
  rewrite !crc_step_xor, Z.shiftr_lxor, Z.lxor_spec.
  destruct (Z.testbit a 0), (Z.testbit b 0); cbn [xorb]; apply Z.bits_inj'; intros i Hi; rewrite !Z.lxor_spec, ?Z.bits_0;
    destruct (Z.testbit (Z.shiftr a 1) i), (Z.testbit (Z.shiftr b 1) i), (Z.testbit poly i); reflexivity.
Qed.
Lemma crc_steps_linear n poly : forall a b,
  crc_steps n poly (Z.lxor a b) = Z.lxor (crc_steps n poly a) (crc_steps n poly b).
Proof. induction n as [|n IH]; intros a b; cbn [crc_steps]; [reflexivity|]. rewrite crc_step_linear. apply IH. Qed.
Lemma crc_step_even poly y k : 0 <= k -> crc_step poly (Z.shiftl y (k + 1)) = Z.shiftl y k.
Proof.
  intros Hk. rewrite crc_step_xor. rewrite Z.shiftl_spec_low by lia. rewrite Z.lxor_0_r.
  rewrite Z.shiftr_shiftl_l by lia. f_equal. lia.
Qed.
Lemma crc_steps_shift n poly : forall y k, 0 <= k -> crc_steps n poly (Z.shiftl y (k + Z.of_nat n)) = Z.shiftl y k.
Proof.
  induction n as [|n IH]; intros y k Hk; cbn [crc_steps].
  - rewrite Z.add_0_r. reflexivity.
  - replace (k + Z.of_nat (S n)) with (k + Z.of_nat n + 1) by lia. rewrite crc_step_even by lia. apply IH. exact Hk.
Qed.
Lemma crc_steps_add n m poly : forall x, crc_steps (n + m) poly x = crc_steps m poly (crc_steps n poly x).
Proof. induction n as [|n IH]; intros x; cbn; [reflexivity|apply IH]. Qed.

Lemma from_le_lxor d l : 0 <= d < 256 -> d + 256 * from_le l = Z.lxor d (Z.shiftl (from_le l) 8).
Proof.
  intros H. rewrite Z.lxor_comm, Z.lxor_lor; [rewrite lor_disjoint_add by lia; change (2 ^ 8) with 256; lia|].
  apply Z.bits_inj'. intros i Hi. rewrite Z.land_spec, Z.bits_0. destruct (Z.ltb_spec i 8).
  - rewrite Z.shiftl_spec_low by lia. reflexivity.
  - rewrite (testbit_high d 8) by lia. apply andb_false_r.
Qed.

(** The CRC of a byte string: shift register steps on the whole string read as one number. *)
Lemma crc16_register data : bytes_ok data -> forall c,
  crc16_from data c = crc_steps (8 * length data) crc_poly (Z.lxor c (from_le data)).
Proof.
  intros H. induction H as [|d l Hd Hl IH]; intros c.
  - cbn. rewrite Z.lxor_0_r. reflexivity.
  - cbn [crc16_from length from_le]. rewrite IH. rewrite (from_le_lxor d l Hd).
    replace (8 * S (length l))%nat with (8 + 8 * length l)%nat by lia. rewrite crc_steps_add.
    f_equal. rewrite <- Z.lxor_assoc, (crc_steps_linear 8 _ (Z.lxor c d) (Z.shiftl _ _)). f_equal.
    symmetry. apply (crc_steps_shift 8 crc_poly (from_le l) 0). lia.
Qed.

Lemma crc_step_bound x : 0 <= x < 2 ^ 16 -> 0 <= crc_step crc_poly x < 2 ^ 16.
Proof. intros H. change (2 ^ 16) with 65536 in *. rewrite crc_step_xor. unfold crc_poly. bits. Qed.
Lemma crc_steps_bound n : forall x, 0 <= x < 2 ^ 16 -> 0 <= crc_steps n crc_poly x < 2 ^ 16.
Proof. induction n as [|n IH]; intros x H; cbn [crc_steps]; [exact H|]. apply IH. apply crc_step_bound. exact H. Qed.
Lemma crc16_bound data : bytes_ok data -> forall c, 0 <= c < 2 ^ 16 -> 0 <= crc16_from data c < 2 ^ 16.
Proof.
  intros H. induction H as [|d l Hd Hl IH]; intros c Hc; [exact Hc|]. cbn [crc16_from]. apply IH.
  apply crc_steps_bound. unfold byte_ok in Hd. change (2 ^ 16) with 65536 in *. bits.
Qed.
Lemma crc16_app a : forall b c, crc16_from (a ++ b) c = crc16_from b (crc16_from a c).
Proof. induction a as [|x a IH]; intros b c; cbn; [reflexivity|apply IH]. Qed.

(** Any CRC followed by its complement leaves the fixed residue. *)
Lemma crc_residue c : 0 <= c < 2 ^ 16 -> crc16_from (le_bytes 2 (Z.land (Z.lnot c) 65535)) c = 0x556f.
Proof.
  intros H. change (2 ^ 16) with 65536 in *.
  rewrite crc16_register by apply le_bytes_ok. rewrite le_bytes_length, from_le_le_bytes by (change (256 ^ Z.of_nat 2) with 65536; bits).
  replace (Z.lxor c (Z.land (Z.lnot c) 65535)) with 65535 by bits. reflexivity.
Qed.

Lemma d_pack_crc_ok k d : dfits k d ->
  exists p, d_pack_crc d = Ok p /\ bytes_ok p /\ length p = 6%nat /\ crc16 p = 0x556f /\ d_unpack_crc p = Ok d.
Proof.
  intros F. destruct (d_roundtrip k d F) as (p & P & B & L & _ & U).
  unfold d_pack_crc. rewrite P. cbn [bind].
  pose proof (crc16_bound p B 65535 ltac:(lia)) as C.
  rewrite struct_pack_le_ok by (change (256 ^ Z.of_nat 2) with 65536; bits). cbn [bind].
  eexists. split; [reflexivity|].
  assert (R : crc16 (p ++ le_bytes 2 (Z.land (Z.lnot (crc16 p)) 65535)) = 0x556f).
  { unfold crc16 at 1. rewrite crc16_app. apply crc_residue. exact C. }
  assert (L6 : length (p ++ le_bytes 2 (Z.land (Z.lnot (crc16 p)) 65535)) = 6%nat)
    by (rewrite app_length, le_bytes_length, L; reflexivity).
  split; [apply bytes_ok_app; split; [exact B|apply le_bytes_ok]|].
  split; [exact L6|]. split; [exact R|].
  unfold d_unpack_crc. rewrite R. unfold zlen. rewrite L6. cbn [negb Z.eqb Pos.eqb Z.of_nat Pos.of_succ_nat Pos.succ].
  rewrite <- L, firstn_app, Nat.sub_diag, firstn_all, app_nil_r. exact U.
Qed.

(** * Errors *)
Lemma corrupt_length e p : length (corrupt e p) = length p.
Proof. unfold corrupt. rewrite map_length, combine_length, seq_length. lia. Qed.

Lemma corrupt_cons e b p : 0 <= e -> corrupt e (b :: p) = Z.lxor b (Z.land e 255) :: corrupt (Z.shiftr e 8) p.
Proof.
  intros He. unfold corrupt. cbn [length List.seq combine map]. f_equal.
  rewrite <- seq_shift. clear b.
  assert (G : forall l p, map (fun '(i, b) => Z.lxor b (Z.land (Z.shiftr e (8 * Z.of_nat i)) 255)) (combine (map S l) p) =
     map (fun '(i, b) => Z.lxor b (Z.land (Z.shiftr (Z.shiftr e 8) (8 * Z.of_nat i)) 255)) (combine l p)).
  { induction l as [|x l IH]; intros [|y q]; cbn [combine map]; try reflexivity. f_equal; [|apply IH].
    rewrite Z.shiftr_shiftr by lia. do 3 f_equal. lia. }
  apply G.
Qed.
Lemma corrupt_ok e p : bytes_ok p -> 0 <= e -> bytes_ok (corrupt e p).
Proof.
  intros H. revert e. induction H as [|b p Hb Hp IH]; intros e He; [constructor|].
  rewrite corrupt_cons by exact He. apply Forall_cons.
  - unfold byte_ok in *. bits.
  - apply IH. apply Z.shiftr_nonneg. exact He.
Qed.
Lemma corrupt_value e p : bytes_ok p -> 0 <= e < 2 ^ (8 * zlen p) -> from_le (corrupt e p) = Z.lxor (from_le p) e.
Proof.
  intros H. revert e. induction H as [|b p Hb Hp IH]; intros e He.
  - unfold zlen in He. cbn in He. assert (e = 0) by lia. subst e. reflexivity.
  - rewrite corrupt_cons by lia. cbn [from_le]. unfold byte_ok in Hb.
    assert (E8 : 0 <= Z.shiftr e 8 < 2 ^ (8 * zlen p)).
    { rewrite Z.shiftr_div_pow2 by lia. rewrite zlen_cons in He.
      replace (8 * (1 + zlen p)) with (8 + 8 * zlen p) in He by lia. pose proof (zlen_nonneg p).
      rewrite Z.pow_add_r in He by lia. split; [apply Z.div_pos; lia|]. apply Z.div_lt_upper_bound; lia. }
    rewrite IH by exact E8.
    rewrite (from_le_lxor b p Hb).
    pose proof (from_le_lxor (Z.lxor b (Z.land e 255)) (corrupt (Z.shiftr e 8) p) ltac:(bits)) as X.
    rewrite IH in X by exact E8. rewrite X. clear X.
    rewrite Z.shiftl_lxor.
    assert (EE : e = Z.lxor (Z.land e 255) (Z.shiftl (Z.shiftr e 8) 8)).
    { apply Z.bits_inj'. intros i Hi. rewrite Z.lxor_spec, Z.land_spec.
      change 255 with (Z.ones 8). destruct (Z.ltb_spec i 8).
      - rewrite Z.ones_spec_low by lia. rewrite Z.shiftl_spec_low by lia. rewrite andb_true_r, xorb_false_r. reflexivity.
      - rewrite Z.ones_spec_high by lia. rewrite Z.shiftl_spec, Z.shiftr_spec by lia. rewrite andb_false_r, xorb_false_l.
        f_equal. lia. }
    rewrite EE at 3.
    rewrite !Z.lxor_assoc. f_equal. rewrite <- !Z.lxor_assoc. f_equal. apply Z.lxor_comm.
Qed.

(** The syndrome of an error decides whether it is noticed. *)
Definition syndrome (e : Z) : Z := crc_steps 48 crc_poly e.
Lemma syndrome_linear a b : syndrome (Z.lxor a b) = Z.lxor (syndrome a) (syndrome b).
Proof. exact (crc_steps_linear 48 crc_poly a b). Qed.
Lemma corrupt_crc e p : bytes_ok p -> length p = 6%nat -> 0 <= e < 2 ^ 48 ->
  crc16 (corrupt e p) = Z.lxor (crc16 p) (syndrome e).
Proof.
  intros B L E. unfold crc16. rewrite !crc16_register by (assumption || (apply corrupt_ok; lia || assumption)).
  rewrite corrupt_length, L. rewrite corrupt_value.
  - change (8 * 6)%nat with 48%nat. rewrite <- Z.lxor_assoc, (crc_steps_linear 48 _ _ e). unfold syndrome. reflexivity.
  - exact B.
  - unfold zlen. rewrite L. exact E.
Qed.
Lemma detected e p : bytes_ok p -> length p = 6%nat -> 0 <= e < 2 ^ 48 -> crc16 p = 0x556f -> syndrome e <> 0 ->
  d_unpack_crc (corrupt e p) = Err PyException.
Proof.
  intros B L E C S. unfold d_unpack_crc. unfold zlen. rewrite corrupt_length, L. cbn [negb Z.eqb Pos.eqb Z.of_nat Pos.of_succ_nat Pos.succ].
  rewrite corrupt_crc by assumption. rewrite C.
  destruct (Z.eqb_spec (Z.lxor 0x556f (syndrome e)) 0x556f) as [X|X]; [|reflexivity].
  exfalso. apply S. apply (f_equal (Z.lxor 0x556f)) in X. rewrite <- Z.lxor_assoc, Z.lxor_nilpotent, Z.lxor_0_l in X. exact X.
Qed.
Lemma undetected e p : bytes_ok p -> length p = 6%nat -> 0 <= e < 2 ^ 48 -> crc16 p = 0x556f -> syndrome e = 0 ->
  d_unpack_crc (corrupt e p) = d_unpack (firstn 4 (corrupt e p)).
Proof.
  intros B L E C S. unfold d_unpack_crc. unfold zlen. rewrite corrupt_length, L. cbn [negb Z.eqb Pos.eqb Z.of_nat Pos.of_succ_nat Pos.succ].
  rewrite corrupt_crc by assumption. rewrite C, S. reflexivity.
Qed.

(** Bursts. *)
Lemma crc_step_inj x : 0 <= x < 2 ^ 16 -> crc_step crc_poly x = 0 -> x = 0.
Proof.
  intros H S. change (2 ^ 16) with 65536 in *. rewrite crc_step_xor in S.
  apply Z.lxor_eq in S. destruct (Z.testbit x 0) eqn:T.
  - exfalso. assert (X : 0 <= Z.shiftr x 1 < 32768) by bits. rewrite S in X. unfold crc_poly in X. lia.
  - rewrite Z.shiftr_div_pow2 in S by lia. change (2 ^ 1) with 2 in S.
    rewrite Z.bit0_odd in T. rewrite <- Z.negb_even in T. apply negb_false_iff in T. apply Z.even_spec in T. destruct T as [y ->]. lia.
Qed.
Lemma crc_steps_inj n : forall x, 0 <= x < 2 ^ 16 -> crc_steps n crc_poly x = 0 -> x = 0.
Proof.
  induction n as [|n IH]; intros x H S; cbn [crc_steps] in S; [exact S|].
  apply crc_step_inj; [exact H|]. apply IH; [apply crc_step_bound; exact H|exact S].
Qed.
Lemma syndrome_split m n e : (m + n = 48)%nat -> syndrome e = crc_steps n crc_poly (crc_steps m crc_poly e).
Proof. intros H. rewrite <- crc_steps_add, H. reflexivity. Qed.
Lemma burst_syndrome b k : 0 < b < 2 ^ 16 -> 0 <= k <= 48 -> syndrome (Z.shiftl b k) <> 0.
Proof.
  intros B K S. rewrite (syndrome_split (Z.to_nat k) (48 - Z.to_nat k)) in S by lia.
  pose proof (crc_steps_shift (Z.to_nat k) crc_poly b 0 ltac:(lia)) as X.
  rewrite Z.add_0_l, Z2Nat.id, Z.shiftl_0_r in X by lia. rewrite X in S.
  apply crc_steps_inj in S; [|lia]. subst b. apply (Z.lt_irrefl 0). apply B.
Qed.

(** Errors of up to four bits: sums of two syndromes are pairwise different.  Position 48 stands for
    "no bit". *)
Definition positions : list Z := map Z.of_nat (List.seq 0 49).
Definition syn (i : Z) : Z := if i <? 48 then syndrome (2 ^ i) else 0.
Definition syn_table : list (Z * Z) := Eval vm_compute in map (fun i => (i, syn i)) positions.
Lemma syn_table_ok : map (fun i => (i, syn i)) positions = syn_table.
Proof. vm_compute. reflexivity. Qed.
Definition syn_pairs : list ((Z * Z) * Z) :=
  flat_map (fun a => flat_map (fun b => if fst a <? fst b then [((fst a, fst b), Z.lxor (snd a) (snd b))] else []) syn_table) syn_table.
Definition key (s : Z) : positive := Z.to_pos (s + 1).
Definition pair_map : PositiveMap.t (Z * Z) :=
  fold_left (fun m p => PositiveMap.add (key (snd p)) (fst p) m) syn_pairs (PositiveMap.empty _).
Definition pair_check : bool :=
  let m := pair_map in
  forallb (fun p => match PositiveMap.find (key (snd p)) m with
                    | Some q => (fst q =? fst (fst p)) && (snd q =? snd (fst p))
                    | None => false
                    end) syn_pairs.
Lemma pair_check_ok : pair_check = true.
Proof. vm_compute. reflexivity. Qed.
Lemma in_positions i : 0 <= i <= 48 -> In i positions.
Proof.
  intros H. unfold positions. replace i with (Z.of_nat (Z.to_nat i)) by lia. apply in_map. apply in_seq. lia.
Qed.
Lemma in_syn_pairs i j : 0 <= i < j -> j <= 48 -> In ((i, j), Z.lxor (syn i) (syn j)) syn_pairs.
Proof.
  intros H1 H2. unfold syn_pairs. rewrite <- syn_table_ok.
  apply in_flat_map. exists (i, syn i). split; [apply (in_map (fun i => (i, syn i))); apply in_positions; lia|].
  apply in_flat_map. exists (j, syn j). split; [apply (in_map (fun i => (i, syn i))); apply in_positions; lia|].
  cbn [fst snd]. replace (i <? j) with true by lia. left. reflexivity.
Qed.
Lemma pair_inj i j k l : 0 <= i < j -> j <= 48 -> 0 <= k < l -> l <= 48 ->
  Z.lxor (syn i) (syn j) = Z.lxor (syn k) (syn l) -> i = k /\ j = l.
Proof.
  intros Hi Hj Hk Hl E. pose proof pair_check_ok as C. unfold pair_check in C. rewrite forallb_forall in C.
  pose proof (C _ (in_syn_pairs i j Hi Hj)) as A. pose proof (C _ (in_syn_pairs k l Hk Hl)) as B.
  cbn [fst snd] in A, B. rewrite E in A.
  destruct (PositiveMap.find _ _) as [[x y]|]; [|discriminate]. cbn [fst snd] in A, B. lia.
Qed.
Lemma pair_inj' i j k l : 0 <= i <= 48 -> 0 <= j <= 48 -> 0 <= k <= 48 -> 0 <= l <= 48 -> NoDup [i; j; k; l] ->
  Z.lxor (syn i) (syn j) <> Z.lxor (syn k) (syn l).
Proof.
  intros Hi Hj Hk Hl N E.
  assert (D : i <> j /\ i <> k /\ i <> l /\ j <> k /\ j <> l /\ k <> l).
  { repeat match goal with H : NoDup (_ :: _) |- _ => inversion H; clear H; subst end. cbn [In] in *. intuition congruence. }
  assert (S : forall a b, 0 <= a <= 48 -> 0 <= b <= 48 -> a <> b ->
     exists a' b', 0 <= a' < b' /\ b' <= 48 /\ Z.lxor (syn a) (syn b) = Z.lxor (syn a') (syn b')
       /\ ((a' = a /\ b' = b) \/ (a' = b /\ b' = a))).
  { intros a b Ha Hb Hab. destruct (Z.lt_ge_cases a b).
    - exists a, b. auto 10 with zarith.
    - exists b, a. split; [lia|]. split; [lia|]. split; [apply Z.lxor_comm|auto]. }
  destruct (S i j Hi Hj ltac:(tauto)) as (a & b & A1 & A2 & A3 & A4).
  destruct (S k l Hk Hl ltac:(tauto)) as (c & d & C1 & C2 & C3 & C4).
  rewrite A3, C3 in E. destruct (pair_inj a b c d A1 A2 C1 C2 E). clear S. lia.
Qed.

Lemma error_at_bits l i : 0 <= i -> Forall (fun x => 0 <= x) l -> Z.testbit (error_at l) i = existsb (Z.eqb i) l.
Proof.
  intros Hi H. induction H as [|x l Hx Hl IH]; cbn [error_at fold_right existsb].
  - apply Z.bits_0.
  - rewrite Z.lor_spec. fold (error_at l). rewrite IH. f_equal. rewrite Z.pow2_bits_eqb by lia. apply Z.eqb_sym.
Qed.
Lemma error_at_cons x l : 0 <= x -> Forall (fun x => 0 <= x) l -> ~ In x l ->
  error_at (x :: l) = Z.lxor (2 ^ x) (error_at l).
Proof.
  intros Hx Hl N. cbn [error_at fold_right]. fold (error_at l). symmetry. apply Z.lxor_lor.
  apply Z.bits_inj'. intros i Hi. rewrite Z.land_spec, Z.bits_0, Z.pow2_bits_eqb by lia.
  rewrite error_at_bits by assumption. destruct (Z.eqb_spec x i) as [->|]; [|reflexivity].
  destruct (existsb (Z.eqb i) l) eqn:E; [|reflexivity]. exfalso. apply N.
  apply existsb_exists in E. destruct E as (y & I & E). apply Z.eqb_eq in E. subst y. exact I.
Qed.
Lemma error_at_bound l : Forall (fun x => 0 <= x < 48) l -> 0 <= error_at l < 2 ^ 48.
Proof.
  intros H. assert (P : Forall (fun x => 0 <= x) l) by (eapply Forall_impl; [|exact H]; cbn; intros; lia).
  apply bound_by_bits; [lia|].
  - intros i Hi. rewrite error_at_bits by (assumption || lia). clear P. induction H as [|x l Hx Hl IH]; [reflexivity|].
    cbn [existsb]. rewrite IH. replace (i =? x) with false by lia. reflexivity.
Qed.
Lemma syndrome_error_at l : Forall (fun x => 0 <= x < 48) l -> NoDup l ->
  syndrome (error_at l) = fold_right (fun i s => Z.lxor (syn i) s) 0 l.
Proof.
  intros H N. induction N as [|x l Hx Nl IH]; [reflexivity|].
  inversion H as [|? ? Hx' Hl']; subst.
  assert (P : Forall (fun x => 0 <= x) l) by (eapply Forall_impl; [|exact Hl']; cbn; intros; lia).
  rewrite error_at_cons by (assumption || lia). rewrite syndrome_linear. rewrite IH by exact Hl'. cbn [fold_right].
  f_equal. unfold syn. replace (x <? 48) with true by lia. reflexivity.
Qed.
Lemma few_bits_syndrome l : Forall (fun x => 0 <= x < 48) l -> NoDup l -> (1 <= length l <= 4)%nat ->
  syndrome (error_at l) <> 0.
Proof.
  intros H N L S. rewrite syndrome_error_at in S by assumption.
  assert (P48 : forall x, 0 <= x < 48 -> x <> 48) by lia.
  assert (Z48 : syn 48 = 0) by reflexivity.
  destruct l as [|i [|j [|k [|m [|? l]]]]]; cbn [length] in L; try lia; cbn [fold_right] in S;
    repeat match goal with H : Forall _ (_ :: _) |- _ => inversion H; clear H; subst end.
  - (* one bit: compare {i, a} with {48, a} *)
    rewrite Z.lxor_0_r in S.
    assert (X : exists a, 0 <= a < 48 /\ a <> i) by (destruct (Z.eq_dec i 0); [exists 1|exists 0]; lia).
    destruct X as (a & Ha & Na).
    destruct (Z.lt_ge_cases a i).
    + destruct (pair_inj a i a 48) as [_ E]; try lia. rewrite Z48, S. reflexivity.
    + destruct (pair_inj i a a 48) as [E _]; try lia. rewrite Z48, S. apply Z.lxor_comm.
  - rewrite Z.lxor_0_r in S. apply Z.lxor_eq in S.
    (* two bits: s_i = s_j; compare {i, a} with {j, a} *)
    assert (X : exists a, 0 <= a <= 48 /\ a <> i /\ a <> j) by (exists 48; lia). destruct X as (a & Ha & Nai & Naj).
    assert (N2 : i <> j) by (inversion N; subst; cbn [In] in *; intuition congruence).
    destruct (pair_inj i 48 j 48) as [E _]; try lia. rewrite S. reflexivity.
  - rewrite Z.lxor_0_r in S. rewrite <- Z.lxor_assoc in S. apply Z.lxor_eq in S.
    apply (pair_inj' i j k 48); try lia.
    + inversion N as [|? ? N1 N2]; inversion N2 as [|? ? N3 N4]; inversion N4 as [|? ? N5 N6]; subst. cbn [In] in *.
      repeat (apply NoDup_cons; [cbn [In]; lia|]). apply NoDup_nil.
    + rewrite Z48, Z.lxor_0_r. exact S.
  - rewrite Z.lxor_0_r in S. rewrite <- Z.lxor_assoc in S. apply Z.lxor_eq in S.
    apply (pair_inj' i j k m); try lia. exact N.
Qed.

Lemma burst_bound b k : 0 < b < 2 ^ 16 -> 0 <= k -> Z.shiftl b k < 2 ^ 48 -> 0 <= Z.shiftl b k < 2 ^ 48.
Proof. intros B K U. split; [|exact U]. apply Z.shiftl_nonneg. lia. Qed.

Lemma d_few_bits k d p l : dfits k d -> d_pack_crc d = Ok p ->
  Forall (fun x => 0 <= x < 48) l -> NoDup l -> (1 <= length l <= 4)%nat ->
  d_unpack_crc (corrupt (error_at l) p) = Err PyException.
Proof.
  intros F P H N L. destruct (d_pack_crc_ok k d F) as (q & Q & B & L6 & C & _).
  rewrite P in Q. apply Ok_inj in Q. subst q.
  apply detected; try assumption; [apply error_at_bound; exact H|apply few_bits_syndrome; assumption].
Qed.
Lemma d_burst k d p b i : dfits k d -> d_pack_crc d = Ok p -> 0 < b < 2 ^ 16 -> 0 <= i -> b * 2 ^ i < 2 ^ 48 ->
  d_unpack_crc (corrupt (b * 2 ^ i) p) = Err PyException.
Proof.
  intros F P Hb Hi U. destruct (d_pack_crc_ok k d F) as (q & Q & B & L6 & C & _).
  rewrite P in Q. apply Ok_inj in Q. subst q.
  rewrite <- Z.shiftl_mul_pow2 in * by lia.
  apply detected; try assumption.
  - split; [apply Z.shiftl_nonneg; lia|exact U].
  - apply burst_syndrome; [exact Hb|]. split; [exact Hi|].
    destruct (Z.le_gt_cases i 48) as [|G]; [assumption|]. exfalso.
    rewrite Z.shiftl_mul_pow2 in U by lia. assert (2 ^ 48 < 2 ^ i) by (apply Z.pow_lt_mono_r; lia).
    assert (0 < 2 ^ i) by (apply Z.pow_pos_nonneg; lia). nia.
Qed.
Lemma d_unpack_crc_length p : length p <> 6%nat -> d_unpack_crc p = Err PyException.
Proof. intros H. unfold d_unpack_crc, zlen. replace (Z.of_nat (length p) =? 6) with false by lia. reflexivity. Qed.
Lemma d_eqb_iff a b : d_eqb a b = true <-> a = b.
Proof.
  split.
  - unfold d_eqb. intros H. destruct a, b; cbn in H.
    repeat match goal with H : _ && _ = true |- _ => apply andb_prop in H; destruct H end.
    repeat match goal with
           | H : (_ =? _) = true |- _ => apply Z.eqb_eq in H
           | H : Bool.eqb _ _ = true |- _ => apply eqb_prop in H
           end. subst. reflexivity.
  - intros ->. unfold d_eqb. rewrite !Z.eqb_refl, eqb_reflx. reflexivity.
Qed.
