From Verif Require Import Base BaseProofs Bits ModelUtils ProofsUtils ModelTlp SpecTlp ProofsTlp.

Lemma bytes_ok_app a b : bytes_ok (a ++ b) <-> bytes_ok a /\ bytes_ok b.
Proof. apply Forall_app. Qed.

(** * C01 *)
Lemma be_bytes4_ok v : exists a b c d, be_bytes 4 v = [a; b; c; d].
Proof. cbn. eauto. Qed.

Lemma roundtrip ty k t : fits ty k t -> (with_payload ty = true -> bytes_ok (data t)) ->
  exists p, pack t = Ok p /\ bytes_ok p /\ unpack p = Ok (on_wire ty k t).
Proof.
  intros F D. exists (header_bytes k t ++ if with_payload ty then data t else []).
  split; [apply pack_bytes; [apply (fits_fmt_type _ _ _ F)|apply (f_kind _ _ _ F)]|].
  split; [|apply unpack_packed; exact F].
  apply Forall_app. split.
  - fold (bytes_ok (header_bytes k t)). destruct k; unfold header_bytes; rewrite !bytes_ok_app; repeat split; apply be_bytes_ok.
  - destruct (with_payload ty); [apply D; reflexivity|constructor].
Qed.

(** * Layout *)
Lemma dword_hd v r : 0 <= v < 2 ^ 32 -> dword (be_bytes 4 v ++ r) 0 = v.
Proof.
  intros H. destruct (be_bytes4_ok v) as (a & b & c & d & E). unfold dword. change (4 * 0)%nat with 0%nat. cbn [skipn].
  pose proof (from_be_be_bytes 4 v ltac:(exact H)) as V. rewrite E in *. cbn [app].
  change (d + 256 * (c + 256 * (b + 256 * (a + 256 * 0))) = v) in V. lia.
Qed.
Lemma dword_tl v r n : dword (be_bytes 4 v ++ r) (S n) = dword r n.
Proof.
  destruct (be_bytes4_ok v) as (a & b & c & d & E). unfold dword. rewrite E.
  replace (4 * S n)%nat with (4 + 4 * n)%nat by lia. reflexivity.
Qed.
Lemma le_bytes_app m : forall n v, le_bytes (m + n) v = le_bytes m v ++ le_bytes n (v / 256 ^ Z.of_nat m).
Proof.
  induction m as [|m IH]; intros n v; cbn [Nat.add le_bytes app].
  - rewrite Z.div_1_r. reflexivity.
  - f_equal. rewrite IH. do 2 f_equal.
    replace (Z.of_nat (S m)) with (1 + Z.of_nat m) by lia. rewrite Z.pow_add_r by lia.
    rewrite Z.div_div by lia. reflexivity.
Qed.
Lemma le_bytes_mod m : forall v, le_bytes m (v mod 256 ^ Z.of_nat m) = le_bytes m v.
Proof.
  induction m as [|m IH]; intros v; [reflexivity|].
  cbn [le_bytes]. replace (Z.of_nat (S m)) with (1 + Z.of_nat m) by lia. rewrite Z.pow_add_r by lia.
  change (256 ^ 1) with 256. assert (0 < 256 ^ Z.of_nat m) by (apply Z.pow_pos_nonneg; lia).
  rewrite Z.rem_mul_r by lia.
  replace (v mod 256 + 256 * ((v / 256) mod 256 ^ Z.of_nat m)) with (v mod 256 + ((v / 256) mod 256 ^ Z.of_nat m) * 256) by lia.
  rewrite Z.mod_add, Z.mod_mod by lia. f_equal.
  rewrite Z.div_add, Zmod_div by lia. cbn [Z.add]. apply IH.
Qed.
Lemma be_bytes8 v : be_bytes 8 v = be_bytes 4 (v / 2 ^ 32) ++ be_bytes 4 (v mod 2 ^ 32).
Proof.
  unfold be_bytes. change 8%nat with (4 + 4)%nat. rewrite le_bytes_app, rev_app_distr.
  change (256 ^ Z.of_nat 4) with (2 ^ 32). f_equal. f_equal. symmetry.
  change (2 ^ 32) with (256 ^ Z.of_nat 4). apply le_bytes_mod.
Qed.

Lemma pack_layout ty k t p : fits ty k t -> pack t = Ok p -> layout k t p /\
  length p = (header_len k + if with_payload ty then length (data t) else 0)%nat.
Proof.
  intros F P. rewrite (pack_bytes ty k) in P; [|apply (fits_fmt_type _ _ _ F)|apply (f_kind _ _ _ F)].
  apply Ok_inj in P. subst p. split.
  2:{ rewrite app_length, header_bytes_length. destruct (with_payload ty); reflexivity. }
  pose proof (f_type _ _ _ F) as Fc. pose proof (type_code_bound ty) as B. rewrite Fc in B. cbn [fst snd] in B.
  destruct B as [B1 B2].
  pose proof (f_kind _ _ _ F) as Fk. pose proof (f_tc _ _ _ F) as Ftc.
  pose proof (f_attr _ _ _ F) as Fat. pose proof (f_at _ _ _ F) as Fa. pose proof (f_tag _ _ _ F) as Ftag.
  pose proof (f_len _ _ _ F) as Fl. pose proof (f_rid _ _ _ F) as Fr.
  pose proof (f_req _ _ _ F) as Fq. pose proof (f_addr _ _ _ F) as Fd. clear F.
  assert (B3 : 0 <= at_ t < 4) by lia.
  pose proof (id_int_bound (requester_id t)) as Br. pose proof (id_int_bound (completer_id t)) as Bc.
  set (rest := if with_payload ty then data t else []).
  assert (D0 : dword (header_bytes k t ++ rest) 0 = header_dw0 t).
  { unfold header_bytes. rewrite <- app_assoc. apply dword_hd. apply header_dw0_bound. }
  split.
  - rewrite D0. unfold layout_dw0. rewrite !field_bits by lia.
    unfold flag.
    replace (tlen t mod 1024) with (Z.land (tlen t) 1023) by (apply (Z.land_ones _ 10); lia).
    unfold header_dw0; cbv zeta; repeat split; bits.
  - assert (R1 : layout_req_dw1 t (dw1_req t) \/ k = KCpl).
    { destruct k; [left|left|left|right; reflexivity]; destruct Fq as [Fq1 Fq2];
      unfold layout_req_dw1; rewrite !field_bits by lia;
      rewrite <- (id_int_id16 _ Fr); change (Z.ones 16) with 65535; change (Z.ones 8) with 255;
      change (Z.ones 4) with 15; unfold dw1_req; repeat split; bits. }
    destruct k.
    + destruct R1 as [R1|?]; [|discriminate]. unfold header_bytes. rewrite <- !app_assoc, !dword_tl.
      rewrite !dword_hd by (apply dw1_req_bound || apply dw2_32_bound). split; [exact R1|].
      destruct Fd as (Fd1 & Fd2 & Fd3). unfold dw2_32.
      assert (exists b, address t = Z.shiftl b 2 /\ 0 <= b < 2 ^ 30) as (b & E & Hb).
      { exists (address t / 4). rewrite Z.shiftl_mul_pow2 by lia. change (2 ^ 2) with 4. lia. }
      rewrite E. transitivity (Z.lor (Z.shiftl b 2) (ph t)); [bits|].
      rewrite lor_disjoint_add by (cbn; lia). rewrite Z.shiftl_mul_pow2 by lia. reflexivity.
    + destruct R1 as [R1|?]; [|discriminate]. unfold header_bytes. rewrite be_bytes8. rewrite <- !app_assoc, !dword_tl.
      pose proof (dw2_64_bound t) as B64.
      rewrite !dword_hd; try apply dw1_req_bound; try (apply Z.mod_pos_bound; lia); try lia.
      split; [exact R1|].
      destruct Fd as (Fd1 & Fd2 & Fd3).
      replace (dw2_64 t / 2 ^ 32 * 2 ^ 32 + dw2_64 t mod 2 ^ 32) with (dw2_64 t) by lia.
      unfold dw2_64.
      assert (exists b, address t = Z.shiftl b 2 /\ 0 <= b < 2 ^ 62) as (b & E & Hb).
      { exists (address t / 4). rewrite Z.shiftl_mul_pow2 by lia. change (2 ^ 2) with 4. lia. }
      rewrite E. transitivity (Z.lor (Z.shiftl b 2) (ph t)); [bits|].
      rewrite lor_disjoint_add by (cbn; lia). rewrite Z.shiftl_mul_pow2 by lia. reflexivity.
    + destruct R1 as [R1|?]; [|discriminate]. unfold header_bytes. rewrite <- !app_assoc, !dword_tl.
      rewrite !dword_hd by (apply dw1_req_bound || apply dw2_cfg_bound). split; [exact R1|].
      destruct Fd as (Fd1 & Fd2 & Fd3). rewrite <- (id_int_id16 _ Fd3), !field_bits by lia.
      change (Z.ones 16) with 65535; change (Z.ones 4) with 15; change (Z.ones 12) with 4095.
      unfold dw2_cfg. split; [bits|]. split; [bits|].
      assert (exists b, address t = Z.shiftl b 2 /\ 0 <= b < 2 ^ 10) as (b & E & Hb).
      { exists (address t / 4). rewrite Z.shiftl_mul_pow2 by lia. change (2 ^ 2) with 4. lia. }
      rewrite E. bits.
    + unfold header_bytes. rewrite <- !app_assoc, !dword_tl.
      rewrite !dword_hd by (apply dw1_cpl_bound || apply dw2_cpl_bound).
      destruct Fd as (Fd1 & Fd2 & Fd3 & Fd4). assert (0 <= status t < 8) by lia.
      rewrite <- (id_int_id16 _ Fd1), <- (id_int_id16 _ Fr), !field_bits by lia. unfold flag.
      replace (byte_count t mod 4096) with (Z.land (byte_count t) 4095) by (apply (Z.land_ones _ 12); lia).
      change (Z.ones 16) with 65535; change (Z.ones 3) with 7; change (Z.ones 12) with 4095;
      change (Z.ones 1) with 1; change (Z.ones 8) with 255; change (Z.ones 7) with 127.
      unfold dw1_cpl, dw2_cpl. repeat split; bits.
Qed.

(** * C02 *)
Lemma struct_unpack_be_inv n p off v : struct_unpack_be n p off = Ok v ->
  (off + n <= length p)%nat /\ v = from_be (firstn n (skipn off p)).
Proof.
  unfold struct_unpack_be. destruct (_ <=? _)%nat eqn:E; [|discriminate].
  intros H. injection H as <-. apply Nat.leb_le in E. auto.
Qed.


Lemma from_be4 a b c d : byte_ok a -> byte_ok b -> byte_ok c -> byte_ok d ->
  0 <= from_be [a; b; c; d] < 2 ^ 32 /\ be_bytes 4 (from_be [a; b; c; d]) = [a; b; c; d].
Proof.
  intros. assert (B : bytes_ok [a; b; c; d]) by (repeat (apply Forall_cons; [assumption|]); apply Forall_nil).
  split; [exact (from_be_bound [a; b; c; d] B)|exact (be_bytes_from_be [a; b; c; d] B)].
Qed.
Lemma land_mod256 v m : (Z.land v m) mod 256 = Z.land (v mod 256) (m mod 256).
Proof.
  change 256 with (2 ^ 8). rewrite <- !Z.land_ones by lia.
  apply Z.bits_inj'. intros i Hi. rewrite !Z.land_spec. destruct (Z.testbit v i), (Z.testbit m i), (Z.testbit (Z.ones 8) i); reflexivity.
Qed.
Lemma land_div256 v m : (Z.land v m) / 256 = Z.land (v / 256) (m / 256).
Proof. change 256 with (2 ^ 8). rewrite <- !Z.shiftr_div_pow2 by lia. apply Z.shiftr_land. Qed.
Lemma be_bytes4_land v m : be_bytes 4 (Z.land v m) =
  map (fun q => Z.land (fst q) (snd q)) (combine (be_bytes 4 v) (be_bytes 4 m)).
Proof.
  cbn [be_bytes le_bytes rev app combine map fst snd].
  rewrite !land_div256, !land_mod256. reflexivity.
Qed.

Lemma unpack_inv p t : bytes_ok p -> unpack p = Ok t ->
  exists ty k, fits ty k t /\ pack t = Ok (canonical ty k p).
Proof.
  intros Bp H. unfold unpack in H. apply bind_ok in H. destruct H as (u & H & Ht). injection Ht as <-.
  unfold unpack_header in H.
  apply bind_ok in H. destruct H as (dw & Hdw & H).
  apply bind_ok in H. destruct H as (at' & Hat & H).
  apply bind_ok in H. destruct H as (ty & Hty & H).
  apply fmt_type_iff in Hty. cbn [fmt type_ set_fmt set_type_] in Hty. tlp_cbn.
  assert (Hat' : Z.land (Z.shiftr dw 10) 3 = at' /\ (at' = 0 \/ at' = 1 \/ at' = 2)).
  { unfold tlp_at in Hat. destruct (_ && _) eqn:E; [|discriminate]. injection Hat as <-. lia. }
  clear Hat. destruct Hat' as [Hat Hat2].
  apply struct_unpack_be_inv in Hdw. destruct Hdw as [L0 Hdw].
  destruct (kind_of ty) as [k|] eqn:Fk.
  2:{ destruct (kind_none ty Fk) as [E1 E2]. rewrite E1, E2 in H. discriminate. }
  exists ty, k.
  rewrite (kind_nolen ty k Fk) in H.
  set (t1 := set_fmt _ _) in H.
  set (t2 := if negb (length_reserved ty) && (tlen t1 =? 0) then set_tlen 1024 t1 else t1) in H.
  set (len := if negb (length_reserved ty) && (Z.land dw 1023 =? 0) then 1024 else Z.land dw 1023).
  assert (E2 : t2 = set_tlen len t1).
  { subst t2 len. change (tlen t1) with (Z.land dw 1023). destruct (negb (length_reserved ty) && (Z.land dw 1023 =? 0)); [reflexivity|].
    unfold t1. reflexivity. }
  clearbody t2. subst t2.
  assert (Lw : 0 <= Z.land dw 1023 < 1024) by bits.
  assert (Hlen : (if length_reserved ty then 0 <= len < 1024 else 1 <= len <= 1024) /\ Z.land len 1023 = Z.land dw 1023).
  { subst len. destruct (length_reserved ty); cbn [negb andb].
    - split; [lia|]. bits.
    - destruct (Z.eqb_spec (Z.land dw 1023) 0) as [Z0|Z0].
      + rewrite Z0. split; [lia|reflexivity].
      + split; [lia|bits]. }
  clearbody len. destruct Hlen as [Hlen1 Hlen2].
  assert (Lp : (12 <= length p)%nat).
  { destruct k.
    - destruct (kind_req32 ty Fk) as (X1 & X2 & X3). rewrite X1, X2 in H.
      apply bind_ok in H. destruct H as (? & _ & H). change (fmt _) with (Z.land (Z.shiftr dw 29) 7) in H.
      rewrite Hty in X3. cbn [fst] in X3. rewrite X3 in H.
      apply bind_ok in H. destruct H as (? & H & _). apply struct_unpack_be_inv in H. lia.
    - destruct (kind_req64 ty Fk) as (X1 & X2 & X3). rewrite X1, X2 in H.
      apply bind_ok in H. destruct H as (? & _ & H). change (fmt _) with (Z.land (Z.shiftr dw 29) 7) in H.
      rewrite Hty in X3. cbn [fst] in X3. rewrite X3 in H.
      apply bind_ok in H. destruct H as (? & H & _). apply struct_unpack_be_inv in H. lia.
    - destruct (kind_cfg ty Fk) as (X1 & X2 & X3). rewrite X1, X2 in H.
      apply bind_ok in H. destruct H as (? & _ & H). 
      apply bind_ok in H. destruct H as (? & H & _). apply struct_unpack_be_inv in H. lia.
    - destruct (kind_cpl ty Fk) as (X1 & X2 & X3). rewrite X1, X2 in H.
      apply bind_ok in H. destruct H as (? & _ & H). apply bind_ok in H. destruct H as (? & _ & H).
      apply bind_ok in H. destruct H as (? & H & _). apply struct_unpack_be_inv in H. lia. }
  destruct p as [|b0 [|b1 [|b2 [|b3 [|b4 [|b5 [|b6 [|b7 [|b8 [|b9 [|b10 [|b11 p]]]]]]]]]]]]; try (cbn in Lp; lia).
  clear Lp L0.
  assert (BB : (byte_ok b0 /\ byte_ok b1 /\ byte_ok b2 /\ byte_ok b3) /\ (byte_ok b4 /\ byte_ok b5 /\ byte_ok b6 /\ byte_ok b7) /\
    (byte_ok b8 /\ byte_ok b9 /\ byte_ok b10 /\ byte_ok b11) /\ bytes_ok p).
  { unfold bytes_ok in *. repeat match goal with X : Forall _ (_ :: _) |- _ => inversion X; clear X; subst end. auto 20. }
  clear Bp. destruct BB as ((? & ? & ? & ?) & (? & ? & ? & ?) & (? & ? & ? & ?) & Bp).
  cbn [skipn firstn] in Hdw.
  destruct (from_be4 b0 b1 b2 b3) as [W0 P0]; try assumption. rewrite <- Hdw in W0, P0.
  destruct (from_be4 b4 b5 b6 b7) as [W1 P1]; try assumption.
  destruct (from_be4 b8 b9 b10 b11) as [W2 P2]; try assumption.
  assert (X0 : forall v, struct_unpack_be 4 (b0 :: b1 :: b2 :: b3 :: b4 :: b5 :: b6 :: b7 :: b8 :: b9 :: b10 :: b11 :: p) 4 = Ok v ->
    v = from_be [b4; b5; b6; b7]).
  { intros v Hv. apply struct_unpack_be_inv in Hv. destruct Hv as [_ ->]. reflexivity. }
  assert (X1 : forall v, struct_unpack_be 4 (b0 :: b1 :: b2 :: b3 :: b4 :: b5 :: b6 :: b7 :: b8 :: b9 :: b10 :: b11 :: p) 8 = Ok v ->
    v = from_be [b8; b9; b10; b11]).
  { intros v Hv. apply struct_unpack_be_inv in Hv. destruct Hv as [_ ->]. reflexivity. }
  set (d1 := from_be [b4; b5; b6; b7]) in *. set (d2 := from_be [b8; b9; b10; b11]) in *.
  clearbody d1 d2. clear Hdw.
  assert (RF : forall x, fmt x = Z.land (Z.shiftr dw 29) 7 -> type_ x = Z.land (Z.shiftr dw 24) 31 -> fmt_type x = Ok ty).
  { intros x E3 E4. apply fmt_type_iff. rewrite E3, E4. exact Hty. }
  assert (MOD4 : forall x, Z.land x 3 = 0 -> x mod 4 = 0).
  { intros x Hx. change 4 with (2 ^ 2). rewrite <- Z.land_ones by lia. exact Hx. }
  assert (IDR : forall x, id_range (id_from_int x)).
  { intros x. pose proof (id_from_int_ok x) as Q. unfold id_ok in Q. unfold id_range. lia. }
  assert (Wat : 0 <= at' < 4) by lia.
  destruct k.
  - destruct (kind_req32 ty Fk) as (Y1 & Y2 & Y3). rewrite Y1, Y2 in H.
    apply bind_ok in H. destruct H as (v1 & Hv1 & H). change (fmt _) with (Z.land (Z.shiftr dw 29) 7) in H.
    rewrite Hty in Y3. cbn [fst] in Y3. rewrite Y3 in H.
    apply bind_ok in H. destruct H as (v2 & Hv2 & H). apply Ok_inj in H. subst u.
    apply X0 in Hv1. apply X1 in Hv2. subst v1 v2.
    set (hs := get_header_size _). assert (HS : hs = 12) by (subst hs; unfold get_header_size; change (fmt _) with (Z.land (Z.shiftr dw 29) 7); rewrite Y3; reflexivity).
    rewrite HS. clear hs HS. set (t := set_data _ _).
    assert (FT : fmt_type t = Ok ty) by (apply RF; reflexivity).
    split.
    + split; subst t t1; tlp_norm; try exact Fk; try exact Hlen1; try apply IDR; try exact Hty; try bits; try lia.
      * split; bits.
      * split; [bits|]. split; [apply MOD4; bits|bits].
    + rewrite (pack_bytes ty KReq32) by assumption. f_equal.
      unfold canonical, header_bytes.
      replace (header_dw0 t) with dw by (subst t t1; rewrite <- Hat; unfold header_dw0; tlp_norm; rewrite ?zbool_testbit by lia; rewrite Hlen2; bits).
      replace (dw1_req t) with d1 by (subst t t1; unfold dw1_req, id_int, id_from_int; tlp_norm; cbn [bus device func]; bits).
      replace (dw2_32 t) with d2 by (subst t t1; unfold dw2_32; tlp_norm; bits).
      rewrite P0, P1, P2. destruct (with_payload ty); reflexivity.
  - destruct (kind_req64 ty Fk) as (Y1 & Y2 & Y3). rewrite Y1, Y2 in H.
    apply bind_ok in H. destruct H as (v1 & Hv1 & H). change (fmt _) with (Z.land (Z.shiftr dw 29) 7) in H.
    rewrite Hty in Y3. cbn [fst] in Y3. rewrite Y3 in H.
    apply bind_ok in H. destruct H as (v2 & Hv2 & H). apply Ok_inj in H. subst u.
    apply X0 in Hv1. subst v1. apply struct_unpack_be_inv in Hv2. destruct Hv2 as [Lp Hv2].
    destruct p as [|c0 [|c1 [|c2 [|c3 p]]]]; try (cbn in Lp; lia).
    cbn [skipn firstn] in Hv2.
    assert (B8 : bytes_ok [b8; b9; b10; b11; c0; c1; c2; c3]).
    { unfold bytes_ok in *. repeat match goal with X : Forall _ (_ :: _) |- _ => inversion X; clear X; subst end.
      repeat (apply Forall_cons; [assumption|]); apply Forall_nil. }
    pose proof (from_be_bound _ B8) as W8. pose proof (be_bytes_from_be _ B8) as P8.
    rewrite <- Hv2 in W8, P8. change (256 ^ zlen [b8; b9; b10; b11; c0; c1; c2; c3]) with (2 ^ 64) in W8.
    cbn [length] in P8. clear Hv2.
    set (hs := get_header_size _). assert (HS : hs = 16) by (subst hs; unfold get_header_size; change (fmt _) with (Z.land (Z.shiftr dw 29) 7); rewrite Y3; reflexivity).
    rewrite HS. clear hs HS. set (t := set_data _ _).
    assert (FT : fmt_type t = Ok ty) by (apply RF; reflexivity).
    split.
    + split; subst t t1; tlp_norm; try exact Fk; try exact Hlen1; try apply IDR; try exact Hty; try bits; try lia.
      * split; bits.
      * split; [bits|]. split; [apply MOD4; bits|bits].
    + rewrite (pack_bytes ty KReq64) by assumption. f_equal.
      unfold canonical, header_bytes.
      replace (header_dw0 t) with dw by (subst t t1; rewrite <- Hat; unfold header_dw0; tlp_norm; rewrite ?zbool_testbit by lia; rewrite Hlen2; bits).
      replace (dw1_req t) with d1 by (subst t t1; unfold dw1_req, id_int, id_from_int; tlp_norm; cbn [bus device func]; bits).
      replace (dw2_64 t) with v2 by (subst t t1; unfold dw2_64; tlp_norm; bits).
      rewrite P0, P1, P8. destruct (with_payload ty); reflexivity.
  - destruct (kind_cfg ty Fk) as (Y1 & Y2 & Y3). rewrite Y1, Y2 in H.
    rewrite Hty in Y3. cbn [fst] in Y3.
    apply bind_ok in H. destruct H as (v1 & Hv1 & H).
    apply bind_ok in H. destruct H as (v2 & Hv2 & H). apply Ok_inj in H. subst u.
    apply X0 in Hv1. apply X1 in Hv2. subst v1 v2.
    set (hs := get_header_size _). assert (HS : hs = 12) by (subst hs; unfold get_header_size; change (fmt _) with (Z.land (Z.shiftr dw 29) 7); rewrite Y3; reflexivity).
    rewrite HS. clear hs HS. set (t := set_data _ _).
    assert (FT : fmt_type t = Ok ty) by (apply RF; reflexivity).
    split.
    + split; subst t t1; tlp_norm; try exact Fk; try exact Hlen1; try apply IDR; try exact Hty; try bits; try lia.
      * split; bits.
      * split; [bits|]. split; [apply MOD4; bits|apply IDR].
    + rewrite (pack_bytes ty KCfg) by assumption. f_equal.
      unfold canonical, header_bytes.
      replace (header_dw0 t) with dw by (subst t t1; rewrite <- Hat; unfold header_dw0; tlp_norm; rewrite ?zbool_testbit by lia; rewrite Hlen2; bits).
      replace (dw1_req t) with d1 by (subst t t1; unfold dw1_req, id_int, id_from_int; tlp_norm; cbn [bus device func]; bits).
      replace (dw2_cfg t) with (Z.land d2 0xffff0ffc) by (subst t t1; unfold dw2_cfg, id_int, id_from_int; tlp_norm; cbn [bus device func]; bits).
      rewrite P0, P1, be_bytes4_land, P2.
      change (be_bytes 4 0xffff0ffc) with [255; 255; 15; 252].
      cbn [combine map fst snd]. unfold byte_ok in *.
      rewrite !land255 by assumption.
      destruct (with_payload ty); reflexivity.
  - destruct (kind_cpl ty Fk) as (Y1 & Y2 & Y3). rewrite Y1, Y2 in H.
    rewrite Hty in Y3. cbn [fst] in Y3.
    apply bind_ok in H. destruct H as (v1 & Hv1 & H).
    apply bind_ok in H. destruct H as (st & Hst & H).
    apply bind_ok in H. destruct H as (v2 & Hv2 & H). apply Ok_inj in H.
    apply X0 in Hv1. apply X1 in Hv2. subst v1 v2.
    assert (Hst' : Z.land (Z.shiftr d1 13) 7 = st /\ (st = 0 \/ st = 1 \/ st = 2 \/ st = 4)).
    { unfold cpl_status in Hst. destruct (_ || _) eqn:E; [|discriminate]. injection Hst as <-. lia. }
    clear Hst. destruct Hst' as [Hst Hst2].
    change (byte_count _) with (Z.land d1 4095) in H.
    assert (Lb : 0 <= Z.land d1 4095 < 4096) by bits.
    set (bc := if Z.land d1 4095 =? 0 then 4096 else Z.land d1 4095).
    assert (Hbc : 1 <= bc <= 4096 /\ Z.land bc 4095 = Z.land d1 4095).
    { subst bc. destruct (Z.eqb_spec (Z.land d1 4095) 0) as [Z0|Z0].
      - rewrite Z0. split; [lia|reflexivity].
      - split; [lia|bits]. }
    match type of H with (if _ then set_byte_count 4096 ?x else ?x) = u => set (t2 := x) in H end.
    assert (E2 : u = set_byte_count bc t2).
    { rewrite <- H. subst bc. destruct (Z.land d1 4095 =? 0); reflexivity. }
    clear H. subst u. clearbody bc. destruct Hbc as [Hbc1 Hbc2].
    set (hs := get_header_size _). assert (HS : hs = 12) by (subst hs; unfold get_header_size; change (fmt _) with (Z.land (Z.shiftr dw 29) 7); rewrite Y3; reflexivity).
    rewrite HS. clear hs HS. set (t := set_data _ _).
    assert (FT : fmt_type t = Ok ty) by (apply RF; reflexivity).
    split.
    + split; subst t t1 t2; tlp_norm; try exact Fk; try exact Hlen1; try apply IDR; try exact Hty; try bits; try lia.
      repeat split; try apply IDR; try exact Hst2; try (apply (proj1 Hbc1)); try (apply (proj2 Hbc1)).
      * assert (Q : 0 <= Z.land d2 127 < 128) by bits. lia.
      * assert (Q : 0 <= Z.land d2 127 < 128) by bits. lia.
    + rewrite (pack_bytes ty KCpl) by assumption. f_equal.
      unfold canonical, header_bytes.
      replace (header_dw0 t) with dw by (subst t t1 t2; rewrite <- Hat; unfold header_dw0; tlp_norm; rewrite ?zbool_testbit by lia; rewrite Hlen2; bits).
      replace (dw1_cpl t) with d1 by (subst t t1 t2; rewrite <- Hst; unfold dw1_cpl, id_int, id_from_int; tlp_norm; rewrite ?zbool_testbit by lia; rewrite Hbc2; cbn [bus device func]; bits).
      replace (dw2_cpl t) with (Z.land d2 0xffffff7f) by (subst t t1 t2; unfold dw2_cpl, id_int, id_from_int; tlp_norm; cbn [bus device func]; bits).
      rewrite P0, P1, be_bytes4_land, P2.
      change (be_bytes 4 0xffffff7f) with [255; 255; 255; 127].
      cbn [combine map fst snd]. unfold byte_ok in *.
      rewrite !land255 by assumption.
      destruct (with_payload ty); reflexivity.
Qed.

(** * Consequences *)
Lemma unpack_kind p t : bytes_ok p -> unpack p = Ok t -> exists ty k, kind_of ty = Some k /\ fmt_type t = Ok ty.
Proof.
  intros B U. destruct (unpack_inv p t B U) as (ty & k & F & _).
  exists ty, k. split; [apply (f_kind _ _ _ F)|apply (fits_fmt_type _ _ _ F)].
Qed.

Lemma pack_injective ty k t ty' k' t' : fits ty k t -> fits ty' k' t' -> pack t = pack t' ->
  ty = ty' /\ k = k' /\ on_wire ty k t = on_wire ty' k' t'.
Proof.
  intros F F' E.
  rewrite (pack_bytes ty k t (fits_fmt_type _ _ _ F) (f_kind _ _ _ F)) in E.
  rewrite (pack_bytes ty' k' t' (fits_fmt_type _ _ _ F') (f_kind _ _ _ F')) in E.
  apply Ok_inj in E. pose proof (unpack_packed ty k t F) as U. rewrite E in U.
  rewrite (unpack_packed ty' k' t' F') in U. apply Ok_inj in U.
  pose proof (fits_fmt_type _ _ _ F) as T. pose proof (fits_fmt_type _ _ _ F') as T'.
  assert (X : Ok ty' = Ok ty).
  { rewrite <- T, <- T'. unfold fmt_type.
    replace (fmt t') with (fmt (on_wire ty' k' t')) by reflexivity.
    replace (type_ t') with (type_ (on_wire ty' k' t')) by reflexivity.
    rewrite U. reflexivity. }
  apply Ok_inj in X. subst ty'.
  assert (Y : Some k = Some k') by (rewrite <- (f_kind _ _ _ F), <- (f_kind _ _ _ F'); reflexivity).
  injection Y as ->. auto.
Qed.

Lemma list_eqb_refl l : list_eqb l l = true.
Proof.
  unfold list_eqb. rewrite Nat.eqb_refl. cbn. apply forallb_forall. intros [x y] H.
  cbn. apply Z.eqb_eq. induction l as [|z l IH]; cbn in H; [destruct H|].
  destruct H as [H|H]; [congruence|auto].
Qed.
Lemma tlp_eqb_refl t : tlp_eqb t t = true.
Proof.
  unfold tlp_eqb, id_eqb. rewrite list_eqb_refl, !Z.eqb_refl, !eqb_reflx. reflexivity.
Qed.
Lemma tlp_eqb_on_wire ty k t : on_wire ty k t = t -> tlp_eqb (on_wire ty k t) t = true.
Proof. intros ->. apply tlp_eqb_refl. Qed.

(** A wire-clean TLP comes back equal in Python's sense. *)
Lemma roundtrip_eq ty k t : fits ty k t -> (with_payload ty = true -> bytes_ok (data t)) -> on_wire ty k t = t ->
  exists p u, pack t = Ok p /\ unpack p = Ok u /\ tlp_eqb u t = true /\ th u = th t.
Proof.
  intros F D E. destruct (roundtrip ty k t F D) as (p & P & _ & U).
  exists p, (on_wire ty k t). rewrite E in *. repeat split; try assumption. apply tlp_eqb_refl.
Qed.

Lemma list_eqb_eq a : forall b, list_eqb a b = true -> a = b.
Proof.
  induction a as [|x a IH]; intros [|y b] H; try discriminate; [reflexivity|].
  unfold list_eqb in H. cbn in H. apply andb_prop in H. destruct H as [L H].
  apply andb_prop in H. destruct H as [E H]. apply Z.eqb_eq in E. cbn in E. subst y.
  f_equal. apply IH. unfold list_eqb. rewrite L. exact H.
Qed.
Lemma id_eqb_eq a b : id_eqb a b = true -> a = b.
Proof.
  unfold id_eqb. intros H. destruct a as [a1 a2 a3], b as [b1 b2 b3]. cbn in H.
  apply andb_prop in H. destruct H as [H H3]. apply andb_prop in H. destruct H as [H1 H2].
  apply Z.eqb_eq in H1, H2, H3. congruence.
Qed.
Lemma tlp_eqb_iff a b : tlp_eqb a b = true <-> set_th (th b) a = b.
Proof.
  split.
  - unfold tlp_eqb. intros H. 
    repeat match goal with H : _ && _ = true |- _ => apply andb_prop in H; destruct H end.
    repeat match goal with
           | H : (_ =? _) = true |- _ => apply Z.eqb_eq in H
           | H : Bool.eqb _ _ = true |- _ => apply eqb_prop in H
           | H : id_eqb _ _ = true |- _ => apply id_eqb_eq in H
           | H : list_eqb _ _ = true |- _ => apply list_eqb_eq in H
           end.
    destruct a, b. unfold set_th. cbn in *. subst. reflexivity.
  - intros <-. unfold tlp_eqb, set_th, id_eqb. cbn. rewrite list_eqb_refl, !Z.eqb_refl, !eqb_reflx. reflexivity.
Qed.

(** * Sizes and credits *)
Lemma kind_has_data ty k t : kind_of ty = Some k -> type_code ty = (fmt t, type_ t) ->
  has_data t = with_payload ty /\ get_header_size t = Z.of_nat (header_len k).
Proof.
  intros K T. pose proof (f_equal fst T) as F; cbn [fst] in F. unfold has_data, get_header_size. 
  destruct ty; try discriminate; injection K as <-; cbn in F; rewrite <- F; split; reflexivity.
Qed.
Lemma pack_size ty k t p : fits ty k t -> pack t = Ok p -> (with_payload ty = false -> data t = []) ->
  zlen p = get_size t /\ get_wire_size t = zlen p + 8.
Proof.
  intros F P D. destruct (pack_layout ty k t p F P) as [_ L].
  destruct (kind_has_data ty k t (f_kind _ _ _ F) (f_type _ _ _ F)) as [_ S].
  unfold get_wire_size, get_size, get_payload_size. rewrite S. unfold zlen in *. rewrite L.
  destruct (with_payload ty); [lia|rewrite D by reflexivity; cbn; lia].
Qed.
Lemma data_credits_spec t : zlen (data t) mod 4 = 0 ->
  zlen (data t) <= 16 * get_data_credits t < zlen (data t) + 16.
Proof. unfold get_data_credits, get_payload_size_dw. intros H. lia. Qed.
Lemma fc_type_class ty t : fmt_type t = Ok ty ->
  match fc_class (fmt t) (type_ t) with Some c => get_fc_type t = Ok c | None => get_fc_type t = Err KeyError end.
Proof.
  intros H. unfold get_fc_type. rewrite H. apply fmt_type_iff in H. pose proof (f_equal fst H) as F; pose proof (f_equal snd H) as Y; cbn [fst snd] in F, Y.
  rewrite <- F, <- Y. destruct ty; reflexivity.
Qed.
