From Verif Require Import Base BaseProofs Bits ModelUtils ProofsUtils ModelTlp SpecTlp.

(** * Enumerations *)
Lemma fmt_type_code ty : fmt_type_of (fst (type_code ty)) (snd (type_code ty)) = Ok ty.
Proof. destruct ty; reflexivity. Qed.
Lemma fmt_type_of_inv f t ty : fmt_type_of f t = Ok ty -> type_code ty = (f, t).
Proof.
  unfold fmt_type_of. intros H.
  destruct (find _ all_types) as [x|] eqn:E; [|discriminate]. injection H as <-.
  apply find_some in E. destruct E as [_ E]. destruct (type_code x) as [a b]. cbn in E. f_equal; lia.
Qed.
Lemma fmt_type_iff t ty : fmt_type t = Ok ty <-> type_code ty = (fmt t, type_ t).
Proof.
  unfold fmt_type. split; [apply fmt_type_of_inv|].
  intros H. pose proof (fmt_type_code ty) as C. rewrite H in C. exact C.
Qed.
Lemma type_code_bound ty : 0 <= fst (type_code ty) < 8 /\ 0 <= snd (type_code ty) < 32.
Proof. destruct ty; cbn; lia. Qed.

Lemma kind_req32 ty : kind_of ty = Some KReq32 ->
  type_in ty req_types = true /\ type_in ty cfg_types = false /\
  ((fst (type_code ty) =? 1) || (fst (type_code ty) =? 3)) = false.
Proof. destruct ty; cbn; intros H; try discriminate; auto. Qed.
Lemma kind_req64 ty : kind_of ty = Some KReq64 ->
  type_in ty req_types = true /\ type_in ty cfg_types = false /\
  ((fst (type_code ty) =? 1) || (fst (type_code ty) =? 3)) = true.
Proof. destruct ty; cbn; intros H; try discriminate; auto. Qed.
Lemma kind_cfg ty : kind_of ty = Some KCfg ->
  type_in ty req_types = true /\ type_in ty cfg_types = true /\
  ((fst (type_code ty) =? 1) || (fst (type_code ty) =? 3)) = false.
Proof. destruct ty; cbn; intros H; try discriminate; auto. Qed.
Lemma kind_cpl ty : kind_of ty = Some KCpl ->
  type_in ty req_types = false /\ type_in ty cpl_types = true /\
  ((fst (type_code ty) =? 1) || (fst (type_code ty) =? 3)) = false.
Proof. destruct ty; cbn; intros H; try discriminate; auto. Qed.
Lemma kind_payload ty k : kind_of ty = Some k ->
  with_payload ty = ((fst (type_code ty) =? 2) || (fst (type_code ty) =? 3)).
Proof. destruct ty; cbn; intros H; try discriminate; auto. Qed.
Lemma kind_nolen ty k : kind_of ty = Some k -> type_in ty nolen_types = length_reserved ty.
Proof. destruct ty; cbn; intros H; try discriminate; auto. Qed.
Lemma kind_none ty : kind_of ty = None -> type_in ty req_types = false /\ type_in ty cpl_types = false.
Proof. destruct ty; cbn; intros H; try discriminate; auto. Qed.

(** * Bit-level facts *)
Lemma field_bits v lo w : 0 <= lo -> 0 <= w -> field v lo w = Z.land (Z.shiftr v lo) (Z.ones w).
Proof. intros. unfold field. rewrite Z.land_ones, Z.shiftr_div_pow2 by lia. reflexivity. Qed.
Lemma id_range_ok i : id_range i -> id_ok i.
Proof. unfold id_range, id_ok. lia. Qed.
Lemma land255 x : 0 <= x < 256 -> Z.land x 255 = x. Proof. intros; bits. Qed.
Lemma id_int_id16 i : id_range i -> id_int i = id16 i.
Proof.
  intros H. rewrite id_int_value by (apply id_range_ok; exact H). unfold id16. lia.
Qed.
Lemma b2z_flag b : Z.b2z b = flag b. Proof. destruct b; reflexivity. Qed.

Record dw0_image (t : tlp) (dw : Z) : Prop := {
  i_len : Z.land dw 1023 = Z.land (tlen t) 1023;
  i_at : Z.land (Z.shiftr dw 10) 3 = at_ t;
  i_ep : zbool (Z.land dw (Z.shiftl 1 14)) = ep t;
  i_td : zbool (Z.land dw (Z.shiftl 1 15)) = td t;
  i_th : zbool (Z.land dw (Z.shiftl 1 16)) = th t;
  i_ln : zbool (Z.land dw (Z.shiftl 1 17)) = ln t;
  i_attr : Z.lor (Z.land (Z.shiftr dw 12) 3) (Z.land (Z.shiftr dw 16) 4) = attr t;
  i_tag : Z.lor (Z.land (Z.shiftr dw 11) 256) (Z.land (Z.shiftr dw 14) 512) = Z.land (tag t) 768;
  i_tc : Z.land (Z.shiftr dw 20) 7 = tc t;
  i_type : Z.land (Z.shiftr dw 24) 31 = type_ t;
  i_fmt : Z.land (Z.shiftr dw 29) 7 = fmt t;
}.
Lemma header_dw0_image t : 0 <= fmt t < 8 -> 0 <= type_ t < 32 -> 0 <= tc t < 8 -> 0 <= attr t < 8 ->
  0 <= at_ t < 4 -> dw0_image t (header_dw0 t).
Proof.
  intros. unfold header_dw0. split; cbv zeta; rewrite ?zbool_testbit by lia; bits.
Qed.
Lemma header_dw0_bound t : 0 <= header_dw0 t < 2 ^ 32.
Proof. unfold header_dw0. cbv zeta. bits. Qed.

Lemma len_image ty t : (if length_reserved ty then 0 <= tlen t < 1024 else 1 <= tlen t <= 1024) ->
  (if negb (length_reserved ty) && (Z.land (tlen t) 1023 =? 0) then 1024 else Z.land (tlen t) 1023) = tlen t.
Proof.
  intros H.
  assert (E : 0 <= tlen t < 1024 -> Z.land (tlen t) 1023 = tlen t) by (intros; bits).
  destruct (length_reserved ty); cbn [negb andb].
  - apply E; exact H.
  - destruct (Z.eq_dec (tlen t) 1024) as [->|N]; [reflexivity|].
    rewrite E by lia. destruct (Z.eqb_spec (tlen t) 0); lia.
Qed.

(** * Packing *)
Definition dw1_req (t : tlp) : Z :=
  Z.lor (Z.lor (Z.lor (Z.land (first_be t) 15) (Z.shiftl (Z.land (last_be t) 15) 4))
    (Z.shiftl (Z.land (tag t) 255) 8)) (Z.shiftl (id_int (requester_id t)) 16).
Definition dw2_cfg (t : tlp) : Z := Z.lor (Z.land (address t) 4092) (Z.shiftl (id_int (completer_id t)) 16).
Definition dw2_64 (t : tlp) : Z := Z.lor (Z.land (address t) 18446744073709551612) (Z.land (ph t) 3).
Definition dw2_32 (t : tlp) : Z := Z.lor (Z.land (address t) 4294967292) (Z.land (ph t) 3).
Definition dw1_cpl (t : tlp) : Z :=
  Z.lor (Z.lor (Z.lor (Z.land (byte_count t) 4095) (Z.shiftl (Z.b2z (bcm t)) 12))
    (Z.shiftl (Z.land (status t) 7) 13)) (Z.shiftl (id_int (completer_id t)) 16).
Definition dw2_cpl (t : tlp) : Z :=
  Z.lor (Z.lor (Z.land (lower_address t) 127) (Z.shiftl (Z.land (tag t) 255) 8))
    (Z.shiftl (id_int (requester_id t)) 16).
Lemma dw1_req_bound t : 0 <= dw1_req t < 2 ^ 32.
Proof. unfold dw1_req. pose proof (id_int_bound (requester_id t)). bits. Qed.
Lemma dw2_cfg_bound t : 0 <= dw2_cfg t < 2 ^ 32.
Proof. unfold dw2_cfg. pose proof (id_int_bound (completer_id t)). bits. Qed.
Lemma dw2_64_bound t : 0 <= dw2_64 t < 2 ^ 64.
Proof. unfold dw2_64. bits. Qed.
Lemma dw2_32_bound t : 0 <= dw2_32 t < 2 ^ 32.
Proof. unfold dw2_32. bits. Qed.
Lemma dw1_cpl_bound t : 0 <= dw1_cpl t < 2 ^ 32.
Proof. unfold dw1_cpl. pose proof (id_int_bound (completer_id t)). bits. Qed.
Lemma dw2_cpl_bound t : 0 <= dw2_cpl t < 2 ^ 32.
Proof. unfold dw2_cpl. pose proof (id_int_bound (requester_id t)). bits. Qed.

Definition header_bytes (k : kind) (t : tlp) : list Z :=
  be_bytes 4 (header_dw0 t) ++
  match k with
  | KReq32 => be_bytes 4 (dw1_req t) ++ be_bytes 4 (dw2_32 t)
  | KReq64 => be_bytes 4 (dw1_req t) ++ be_bytes 8 (dw2_64 t)
  | KCfg => be_bytes 4 (dw1_req t) ++ be_bytes 4 (dw2_cfg t)
  | KCpl => be_bytes 4 (dw1_cpl t) ++ be_bytes 4 (dw2_cpl t)
  end.

Lemma pack_header_bytes ty k t : fmt_type t = Ok ty -> kind_of ty = Some k ->
  pack_header t = Ok (header_bytes k t).
Proof.
  intros Ht Hk. unfold pack_header.
  rewrite (struct_pack_be_ok 4 (header_dw0 t)) by apply header_dw0_bound. cbn [bind].
  rewrite Ht. cbn [bind]. pose proof Ht as Hc. apply fmt_type_iff in Hc.
  assert (Hf : fst (type_code ty) = fmt t) by (rewrite Hc; reflexivity).
  fold (dw1_req t). fold (dw2_cfg t). fold (dw2_64 t). fold (dw2_32 t). fold (dw1_cpl t). fold (dw2_cpl t).
  destruct k.
  - destruct (kind_req32 ty Hk) as (-> & -> & E). rewrite Hf in E. rewrite E.
    rewrite (struct_pack_be_ok 4 (dw1_req t)) by apply dw1_req_bound. cbn [bind].
    rewrite (struct_pack_be_ok 4 (dw2_32 t)) by apply dw2_32_bound. reflexivity.
  - destruct (kind_req64 ty Hk) as (-> & -> & E). rewrite Hf in E. rewrite E.
    rewrite (struct_pack_be_ok 4 (dw1_req t)) by apply dw1_req_bound. cbn [bind].
    rewrite (struct_pack_be_ok 8 (dw2_64 t)) by apply dw2_64_bound. reflexivity.
  - destruct (kind_cfg ty Hk) as (-> & -> & E).
    rewrite (struct_pack_be_ok 4 (dw1_req t)) by apply dw1_req_bound. cbn [bind].
    rewrite (struct_pack_be_ok 4 (dw2_cfg t)) by apply dw2_cfg_bound. reflexivity.
  - destruct (kind_cpl ty Hk) as (-> & -> & E).
    rewrite (struct_pack_be_ok 4 (dw1_cpl t)) by apply dw1_cpl_bound. cbn [bind].
    rewrite (struct_pack_be_ok 4 (dw2_cpl t)) by apply dw2_cpl_bound. reflexivity.
Qed.

Lemma header_bytes_length k t : length (header_bytes k t) = header_len k.
Proof. destruct k; unfold header_bytes; rewrite !app_length, !be_bytes_length; reflexivity. Qed.

Lemma pack_bytes ty k t : fmt_type t = Ok ty -> kind_of ty = Some k ->
  pack t = Ok (header_bytes k t ++ if with_payload ty then data t else []).
Proof.
  intros Ht Hk. unfold pack. rewrite (pack_header_bytes ty k) by assumption. cbn [bind].
  unfold has_data. rewrite (kind_payload ty k Hk).
  pose proof Ht as Hc. apply fmt_type_iff in Hc. rewrite Hc. cbn [fst].
  destruct (_ || _); rewrite ?app_nil_r; reflexivity.
Qed.

(** Types without a layout are rejected. *)
Lemma pack_rejects ty t : fmt_type t = Ok ty -> kind_of ty = None -> pack t = Err PyException.
Proof.
  intros Ht Hk. unfold pack, pack_header.
  rewrite (struct_pack_be_ok 4 (header_dw0 t)) by apply header_dw0_bound. cbn [bind].
  rewrite Ht. cbn [bind]. destruct (kind_none ty Hk) as [-> ->]. reflexivity.
Qed.
Lemma pack_unknown t : (forall ty, type_code ty <> (fmt t, type_ t)) -> pack t = Err ValueError.
Proof.
  intros H. unfold pack, pack_header.
  rewrite (struct_pack_be_ok 4 (header_dw0 t)) by apply header_dw0_bound. cbn [bind].
  destruct (fmt_type t) as [ty|e] eqn:E.
  - apply fmt_type_iff in E. destruct (H ty E).
  - unfold fmt_type, fmt_type_of in E. destruct (find _ _); [discriminate|]. injection E as <-. reflexivity.
Qed.

(** * Unpacking what was packed *)
Lemma unpack_at0 n v rest : 0 <= v < 256 ^ Z.of_nat n -> struct_unpack_be n (be_bytes n v ++ rest) 0 = Ok v.
Proof. intros H. apply (struct_unpack_be_at n [] rest v H). Qed.
Lemma unpack_at1 m n u v rest : 0 <= v < 256 ^ Z.of_nat n ->
  struct_unpack_be n (be_bytes m u ++ be_bytes n v ++ rest) m = Ok v.
Proof.
  intros H. rewrite <- (be_bytes_length m u) at 2. apply (struct_unpack_be_at n (be_bytes m u) rest v H).
Qed.
Lemma unpack_at2 n u v w rest : 0 <= w < 256 ^ Z.of_nat n ->
  struct_unpack_be n (be_bytes 4 u ++ be_bytes 4 v ++ be_bytes n w ++ rest) 8 = Ok w.
Proof.
  intros H. rewrite app_assoc.
  replace 8%nat with (length (be_bytes 4 u ++ be_bytes 4 v)) by (rewrite app_length, !be_bytes_length; reflexivity).
  apply (struct_unpack_be_at n (be_bytes 4 u ++ be_bytes 4 v) rest w H).
Qed.

Lemma tlp_at_ok v : v = 0 \/ v = 1 \/ v = 2 -> tlp_at v = Ok v.
Proof. intros [-> | [-> | ->]]; reflexivity. Qed.
Lemma cpl_status_ok v : v = 0 \/ v = 1 \/ v = 2 \/ v = 4 -> cpl_status v = Ok v.
Proof. intros [-> | [-> | [-> | ->]]]; reflexivity. Qed.

Lemma id_shift_int x i : 0 <= x < 65536 -> id_range i -> id_from_int (Z.shiftr (Z.lor x (Z.shiftl (id_int i) 16)) 16) = i.
Proof.
  intros Hx Hi. pose proof (id_int_bound i).
  replace (Z.shiftr (Z.lor x (Z.shiftl (id_int i) 16)) 16) with (id_int i) by (symmetry; bits).
  apply id_from_int_int. apply id_range_ok. exact Hi.
Qed.

Lemma addr32_image t : 0 <= address t < 2 ^ 32 -> address t mod 4 = 0 -> 0 <= ph t < 4 ->
  Z.land (dw2_32 t) 4294967292 = address t /\ Z.land (dw2_32 t) 3 = ph t.
Proof.
  intros Ha Hm Hp. assert (exists b, address t = Z.shiftl b 2 /\ 0 <= b < 2 ^ 30) as (b & E & Hb).
  { exists (address t / 4). rewrite Z.shiftl_mul_pow2 by lia. change (2 ^ 2) with 4. lia. }
  unfold dw2_32. rewrite E. split; bits.
Qed.
Lemma addr64_image t : 0 <= address t < 2 ^ 64 -> address t mod 4 = 0 -> 0 <= ph t < 4 ->
  Z.land (dw2_64 t) 18446744073709551612 = address t /\ Z.land (dw2_64 t) 3 = ph t.
Proof.
  intros Ha Hm Hp. assert (exists b, address t = Z.shiftl b 2 /\ 0 <= b < 2 ^ 62) as (b & E & Hb).
  { exists (address t / 4). rewrite Z.shiftl_mul_pow2 by lia. change (2 ^ 2) with 4. lia. }
  unfold dw2_64. rewrite E. split; bits.
Qed.
Lemma addrcfg_image t : 0 <= address t < 4096 -> address t mod 4 = 0 ->
  Z.land (dw2_cfg t) 4092 = address t.
Proof.
  intros Ha Hm. pose proof (id_int_bound (completer_id t)).
  assert (exists b, address t = Z.shiftl b 2 /\ 0 <= b < 2 ^ 10) as (b & E & Hb).
  { exists (address t / 4). rewrite Z.shiftl_mul_pow2 by lia. change (2 ^ 2) with 4. lia. }
  unfold dw2_cfg. rewrite E. bits.
Qed.

Lemma fits_fmt_type ty k t : fits ty k t -> fmt_type t = Ok ty.
Proof. intros F. apply fmt_type_iff. apply (f_type _ _ _ F). Qed.

Lemma skipn_header k t rest : skipn (header_len k) (header_bytes k t ++ rest) = rest.
Proof. rewrite <- (header_bytes_length k t), skipn_app, skipn_all, Nat.sub_diag. reflexivity. Qed.

Ltac tlp_cbn := cbn [set_fmt set_type_ set_tc set_ln set_th set_td set_ep set_attr set_at_ set_tlen set_completer_id
  set_status set_bcm set_byte_count set_requester_id set_tag set_first_be set_last_be set_lower_address set_address
  set_ph set_data set_seq tlp0
  fmt type_ tc ln th td ep attr at_ tlen completer_id status bcm byte_count requester_id tag first_be last_be
  lower_address address ph data seq].
Ltac tlp_norm := cbv [set_fmt set_type_ set_tc set_ln set_th set_td set_ep set_attr set_at_ set_tlen set_completer_id
  set_status set_bcm set_byte_count set_requester_id set_tag set_first_be set_last_be set_lower_address set_address
  set_ph set_data set_seq tlp0 
  fmt type_ tc ln th td ep attr at_ tlen completer_id status bcm byte_count requester_id tag first_be last_be
  lower_address address ph data seq].

Lemma unpack_header_rest ty k t payload : fits ty k t ->
  unpack_header (header_bytes k t ++ payload) = Ok (set_data [] (on_wire ty k t)).
Proof.
  intros F.
  pose proof (fits_fmt_type _ _ _ F) as Ft. pose proof (f_type _ _ _ F) as Fc.
  pose proof (f_kind _ _ _ F) as Fk. pose proof (f_tc _ _ _ F) as Ftc.
  pose proof (f_attr _ _ _ F) as Fat. pose proof (f_at _ _ _ F) as Fa. pose proof (f_tag _ _ _ F) as Ftag.
  pose proof (f_len _ _ _ F) as Fl. pose proof (f_rid _ _ _ F) as Fr.
  pose proof (f_req _ _ _ F) as Fq. pose proof (f_addr _ _ _ F) as Fd. clear F.
  pose proof (type_code_bound ty) as B. rewrite Fc in B. cbn [fst snd] in B.
  destruct (header_dw0_image t) as [Ilen Iat Iep Itd Ith Iln Iattr Itag Itc Ity Ifmt]; try lia.
  assert (U0 : struct_unpack_be 4 (header_bytes k t ++ payload) 0 = Ok (header_dw0 t)).
  { unfold header_bytes. rewrite <- app_assoc. apply unpack_at0. apply header_dw0_bound. }
  pose proof (len_image ty t Fl) as L.
  assert (Hf : fst (type_code ty) = fmt t) by (rewrite Fc; reflexivity).
  unfold unpack_header. rewrite U0. cbn [bind].
  rewrite Iat, (tlp_at_ok _ Fa). cbn [bind]. tlp_cbn.
  rewrite Ilen, Iep, Itd, Ith, Iln, Iattr, Itag, Itc, Ity, Ifmt.
  match goal with |- context [fmt_type ?x] => set (t1 := x) end.
  assert (Tt : fmt_type t1 = Ok ty) by exact Ft. rewrite Tt. cbn [bind]. clear Tt.
  rewrite (kind_nolen ty k Fk).
  assert (T2 : (if negb (length_reserved ty) && (Z.land (tlen t) 1023 =? 0) then set_tlen 1024 t1 else t1)
    = set_tlen (tlen t) t1).
  { destruct (negb (length_reserved ty) && (Z.land (tlen t) 1023 =? 0)).
    - f_equal. exact L.
    - transitivity (set_tlen (Z.land (tlen t) 1023) t1); [reflexivity|f_equal; exact L]. }
  rewrite T2. clear T2. subst t1. tlp_cbn.
  destruct k.
  - destruct (kind_req32 ty Fk) as (-> & -> & E). rewrite Hf in E. rewrite E.
    assert (U1 : struct_unpack_be 4 (header_bytes KReq32 t ++ payload) 4 = Ok (dw1_req t)).
    { unfold header_bytes. rewrite <- !app_assoc. apply unpack_at1. apply dw1_req_bound. }
    assert (U2 : struct_unpack_be 4 (header_bytes KReq32 t ++ payload) 8 = Ok (dw2_32 t)).
    { unfold header_bytes. rewrite <- !app_assoc. apply unpack_at2. apply dw2_32_bound. }
    rewrite U1, U2. cbn [bind]. tlp_cbn.
    destruct Fd as (Fd1 & Fd2 & Fd3). destruct (addr32_image t Fd1 Fd2 Fd3) as [-> ->].
    destruct Fq as [Fq1 Fq2].
    unfold on_wire. tlp_norm. do 2 f_equal; try reflexivity.
    + unfold dw1_req. apply id_shift_int; [bits|exact Fr].
    + unfold dw1_req. pose proof (id_int_bound (requester_id t)). bits.
    + unfold dw1_req. pose proof (id_int_bound (requester_id t)). bits.
    + unfold dw1_req. pose proof (id_int_bound (requester_id t)). bits.
  - destruct (kind_req64 ty Fk) as (-> & -> & E). rewrite Hf in E. rewrite E.
    assert (U1 : struct_unpack_be 4 (header_bytes KReq64 t ++ payload) 4 = Ok (dw1_req t)).
    { unfold header_bytes. rewrite <- !app_assoc. apply unpack_at1. apply dw1_req_bound. }
    assert (U2 : struct_unpack_be 8 (header_bytes KReq64 t ++ payload) 8 = Ok (dw2_64 t)).
    { unfold header_bytes. rewrite <- !app_assoc. apply unpack_at2. apply dw2_64_bound. }
    rewrite U1, U2. cbn [bind]. tlp_cbn.
    destruct Fd as (Fd1 & Fd2 & Fd3). destruct (addr64_image t Fd1 Fd2 Fd3) as [-> ->].
    destruct Fq as [Fq1 Fq2].
    unfold on_wire. tlp_norm. do 2 f_equal; try reflexivity.
    + unfold dw1_req. apply id_shift_int; [bits|exact Fr].
    + unfold dw1_req. pose proof (id_int_bound (requester_id t)). bits.
    + unfold dw1_req. pose proof (id_int_bound (requester_id t)). bits.
    + unfold dw1_req. pose proof (id_int_bound (requester_id t)). bits.
  - destruct (kind_cfg ty Fk) as (-> & -> & E). rewrite Hf in E.
    assert (U1 : struct_unpack_be 4 (header_bytes KCfg t ++ payload) 4 = Ok (dw1_req t)).
    { unfold header_bytes. rewrite <- !app_assoc. apply unpack_at1. apply dw1_req_bound. }
    assert (U2 : struct_unpack_be 4 (header_bytes KCfg t ++ payload) 8 = Ok (dw2_cfg t)).
    { unfold header_bytes. rewrite <- !app_assoc. apply unpack_at2. apply dw2_cfg_bound. }
    rewrite U1, U2. cbn [bind]. tlp_cbn.
    destruct Fd as (Fd1 & Fd2 & Fd3). rewrite (addrcfg_image t Fd1 Fd2).
    destruct Fq as [Fq1 Fq2].
    unfold on_wire. tlp_norm. do 2 f_equal; try reflexivity.
    + unfold dw2_cfg. apply id_shift_int; [bits|exact Fd3].
    + unfold dw1_req. apply id_shift_int; [bits|exact Fr].
    + unfold dw1_req. pose proof (id_int_bound (requester_id t)). bits.
    + unfold dw1_req. pose proof (id_int_bound (requester_id t)). bits.
    + unfold dw1_req. pose proof (id_int_bound (requester_id t)). bits.
  - destruct (kind_cpl ty Fk) as (-> & -> & E). rewrite Hf in E.
    assert (U1 : struct_unpack_be 4 (header_bytes KCpl t ++ payload) 4 = Ok (dw1_cpl t)).
    { unfold header_bytes. rewrite <- !app_assoc. apply unpack_at1. apply dw1_cpl_bound. }
    assert (U2 : struct_unpack_be 4 (header_bytes KCpl t ++ payload) 8 = Ok (dw2_cpl t)).
    { unfold header_bytes. rewrite <- !app_assoc. apply unpack_at2. apply dw2_cpl_bound. }
    rewrite U1, U2. cbn [bind]. tlp_cbn.
    destruct Fd as (Fd1 & Fd2 & Fd3 & Fd4).
    pose proof (id_int_bound (completer_id t)) as Bc. pose proof (id_int_bound (requester_id t)) as Br.
    assert (S : Z.land (Z.shiftr (dw1_cpl t) 13) 7 = status t).
    { assert (0 <= status t < 8) by lia. unfold dw1_cpl. bits. }
    rewrite S, (cpl_status_ok _ Fd2). cbn [bind]. tlp_cbn.
    assert (C1 : id_from_int (Z.shiftr (dw1_cpl t) 16) = completer_id t).
    { unfold dw1_cpl. apply id_shift_int; [bits|exact Fd1]. }
    assert (C2 : id_from_int (Z.shiftr (dw2_cpl t) 16) = requester_id t).
    { unfold dw2_cpl. apply id_shift_int; [bits|exact Fr]. }
    assert (C3 : Z.land (dw2_cpl t) 127 = lower_address t) by (unfold dw2_cpl; bits).
    assert (C4 : Z.lor (Z.land (tag t) 768) (Z.land (Z.shiftr (dw2_cpl t) 8) 255) = tag t) by (unfold dw2_cpl; bits).
    assert (C5 : zbool (Z.land (dw1_cpl t) (Z.shiftl 1 12)) = bcm t)
      by (rewrite zbool_testbit by lia; unfold dw1_cpl; bits).
    assert (C6 : Z.land (dw1_cpl t) 4095 = Z.land (byte_count t) 4095) by (unfold dw1_cpl; bits).
    rewrite C1, C2, C3, C4, C5, C6.
    assert (C7 : (if Z.land (byte_count t) 4095 =? 0 then 4096 else Z.land (byte_count t) 4095) = byte_count t).
    { destruct (Z.eq_dec (byte_count t) 4096) as [->|N]; [reflexivity|].
      assert (0 <= byte_count t < 4096) by lia.
      assert (X : Z.land (byte_count t) 4095 = byte_count t) by bits. rewrite X.
      destruct (Z.eqb_spec (byte_count t) 0); lia. }
    destruct (Z.land (byte_count t) 4095 =? 0); tlp_cbn;
    unfold on_wire; tlp_norm; do 2 f_equal; (reflexivity || exact C7).
Qed.
Lemma on_wire_header_size ty k t d : fits ty k t -> get_header_size (set_data d (on_wire ty k t)) = Z.of_nat (header_len k).
Proof.
  intros F. pose proof (f_equal fst (f_type _ _ _ F)) as E. pose proof (f_kind _ _ _ F) as K. cbn [fst] in E.
  unfold get_header_size. change (fmt (set_data d (on_wire ty k t))) with (fmt t). rewrite <- E.
  destruct ty; try discriminate K; injection K as <-; reflexivity.
Qed.
Lemma unpack_rest ty k t payload : fits ty k t ->
  unpack (header_bytes k t ++ payload) = Ok (set_data payload (on_wire ty k t)).
Proof.
  intros F. unfold unpack. rewrite (unpack_header_rest ty k t payload F). cbn [bind].
  rewrite (on_wire_header_size _ _ _ _ F), Nat2Z.id, skipn_header. reflexivity.
Qed.
Lemma unpack_packed ty k t : fits ty k t ->
  unpack (header_bytes k t ++ if with_payload ty then data t else []) = Ok (on_wire ty k t).
Proof. intros F. rewrite (unpack_rest ty k t _ F). reflexivity. Qed.
