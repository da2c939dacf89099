From Verif Require Import Base BaseProofs Bits ModelUtils ProofsUtils ModelTlp SpecTlp ProofsTlp ModelRegion ModelFrames SpecParity ProofsParity ModelUs SpecUs.

(** ** Payload *)
Lemma to_dwords_ok : forall n d, bytes_ok d -> length d = (4 * n)%nat ->
  exists l, to_dwords d = Ok l /\ length l = n /\ of_dwords l = Ok d /\ Forall (fun w => 0 <= w < 2 ^ 32) l /\ word_bytes_at d l.
Proof.
  induction n as [|n IH]; intros d B L.
  - destruct d; [|cbn in L; lia]. exists []. repeat split; try constructor. cbn. intros; lia.
  - do 4 (destruct d as [|? d]; [cbn in L; lia|]). cbn [length] in L.
    inversion B as [|? ? B0 B']; subst. inversion B' as [|? ? B1 B'']; subst. inversion B'' as [|? ? B2 B3']; subst. inversion B3' as [|? ? B3 Bd]; subst.
    destruct (IH d Bd ltac:(lia)) as (l & E & Ll & O & F & (W1 & W2)). unfold byte_ok in *.
    exists (from_le [z; z0; z1; z2] :: l). cbn [to_dwords]. rewrite E. cbn [bind]. split; [reflexivity|]. split; [cbn; lia|].
    assert (R : 0 <= from_le [z; z0; z1; z2] < 2 ^ 32) by (cbn [from_le]; lia).
    split.
    { cbn [of_dwords]. rewrite struct_pack_le_ok by exact R. cbn [bind]. rewrite O. cbn [bind].
      change 4%nat with (length [z; z0; z1; z2]). rewrite le_bytes_from_le; [reflexivity|]. do 4 (apply Forall_cons; [assumption|]). apply Forall_nil. }
    split; [constructor; assumption|]. split.
    + unfold zlen in *. cbn [length]. lia.
    + intros i j Hi Hj. unfold zlen in Hi. cbn [length] in Hi. destruct (Z.eq_dec i 0) as [->|N].
      * assert (J : j = 0 \/ j = 1 \/ j = 2 \/ j = 3) by lia. unfold field. cbn [from_le nth Z.to_nat]. clear - B0 B1 B2 B3 J.
        destruct J as [->|[->|[->| ->]]]; change (Z.to_nat (4 * 0 + 0)) with 0%nat; change (Z.to_nat (4 * 0 + 1)) with 1%nat; change (Z.to_nat (4 * 0 + 2)) with 2%nat; change (Z.to_nat (4 * 0 + 3)) with 3%nat; cbn [nth];
          change (2 ^ (8 * 0)) with 1; change (2 ^ (8 * 1)) with 256; change (2 ^ (8 * 2)) with 65536; change (2 ^ (8 * 3)) with 16777216; change (2 ^ 8) with 256; lia.
      * replace (Z.to_nat i) with (S (Z.to_nat (i - 1))) by lia. cbn [nth]. rewrite W2 by (unfold zlen; lia).
        replace (Z.to_nat (4 * i + j)) with (S (S (S (S (Z.to_nat (4 * (i - 1) + j)))))) by lia. reflexivity.
Qed.
Lemma to_dwords_any d : bytes_ok d -> zlen d mod 4 = 0 ->
  exists l, to_dwords d = Ok l /\ zlen d = 4 * zlen l /\ of_dwords l = Ok d /\ Forall (fun w => 0 <= w < 2 ^ 32) l /\ word_bytes_at d l.
Proof.
  intros B M. destruct (to_dwords_ok (Z.to_nat (zlen d / 4)) d B) as (l & E & L & R); [unfold zlen in *; lia|]. exists l. split; [exact E|].
  split; [unfold zlen in *; lia|exact R].
Qed.
Lemma payload_be_eqb l : zlist_eqb l l = true. Proof. apply zlist_eqb_eq. reflexivity. Qed.

(** ** Descriptor words *)
Definition addr0 (t : tlp) : Z := Z.lor (Z.land (at_ t) 3) (Z.land (address t) 0xfffffffc).
Definition addr1 (t : tlp) : Z := Z.shiftr (Z.land (address t) 0xffffffff00000000) 32.
Definition cq2 (t : tlp) (rq : Z) : Z := Z.lor (Z.lor (Z.land (tlen t) 0x7ff) (Z.shiftl rq 11)) (Z.shiftl (id_int (requester_id t)) 16).
Definition cq3 (u : tlp_us) : Z :=
  let t := u_tlp u in
  Z.lor (Z.lor (Z.lor (Z.lor (Z.lor (Z.land (tag t) 0xff) (Z.shiftl (Z.land (func (completer_id t)) 0xff) 8)) (Z.shiftl (Z.land (bar_id u) 7) 16))
    (Z.shiftl (Z.land (bar_aperture u) 0x3f) 19)) (Z.shiftl (Z.land (tc t) 7) 25)) (Z.shiftl (Z.land (attr t) 7) 28).
Definition rq2 (t : tlp) (rq : Z) : Z :=
  Z.lor (Z.lor (Z.lor (Z.land (tlen t) 0x7ff) (Z.shiftl (Z.land rq 0xf) 11)) (Z.shiftl (Z.b2z (ep t)) 15)) (Z.shiftl (id_int (requester_id t)) 16).
Definition rq3 (u : tlp_us) (en : bool) : Z :=
  let t := u_tlp u in
  Z.lor (Z.lor (Z.lor (Z.lor (Z.land (tag t) 0xff) (Z.shiftl (id_int (completer_id t)) 8)) (Z.shiftl (Z.b2z en) 24)) (Z.shiftl (Z.land (tc t) 7) 25)) (Z.shiftl (Z.land (attr t) 7) 28).
Definition cpl1 (t : tlp) : Z :=
  Z.lor (Z.lor (Z.lor (Z.land (tlen t) 0x7ff) (Z.shiftl (Z.land (status t) 7) 11)) (Z.shiftl (Z.b2z (ep t)) 14)) (Z.shiftl (id_int (requester_id t)) 16).
Definition cc0 (t : tlp) (lk : bool) : Z :=
  let d := Z.lor (Z.lor (Z.land (lower_address t) 0x7f) (Z.shiftl (Z.land (at_ t) 3) 8)) (Z.shiftl (Z.land (byte_count t) 0x1fff) 16) in
  if lk then Z.lor d (Z.shiftl 1 29) else d.
Definition rc0 (u : tlp_us) (lk : bool) : Z :=
  let t := u_tlp u in
  let d := Z.lor (Z.lor (Z.land (lower_address t) 0xfff) (Z.shiftl (Z.land (error_code u) 0xf) 12)) (Z.shiftl (Z.land (byte_count t) 0x1fff) 16) in
  Z.lor (if lk then Z.lor d (Z.shiftl 1 29) else d) (Z.shiftl (Z.b2z (zbool (request_completed u))) 30).
Definition rc2 (u : tlp_us) : Z :=
  let t := u_tlp u in
  Z.lor (Z.lor (Z.lor (Z.land (tag t) 0xff) (Z.shiftl (id_int (completer_id t)) 8)) (Z.shiftl (Z.land (tc t) 7) 25)) (Z.shiftl (Z.land (attr t) 7) 28).

Lemma addr_image t : 0 <= address t < 2 ^ 64 -> address t mod 4 = 0 -> 0 <= at_ t < 4 ->
  Z.land (addr0 t) 3 = at_ t /\ Z.lor (Z.shiftl (addr1 t) 32) (Z.land (addr0 t) 0xfffffffc) = address t /\
  0 <= addr0 t < 2 ^ 32 /\ 0 <= addr1 t < 2 ^ 32.
Proof.
  intros Ha Hm Hp. assert (exists b, address t = Z.shiftl b 2 /\ 0 <= b < 2 ^ 62) as (b & E & Hb).
  { exists (address t / 4). rewrite Z.shiftl_mul_pow2 by lia. change (2 ^ 2) with 4. lia. }
  unfold addr0, addr1. rewrite E. split; [bits|]. split; [bits|]. split; bits.
Qed.
Lemma id_field x i s : id_range i -> Z.land (Z.shiftr x s) 0xffff = id_int i -> id_from_int (Z.shiftr x s) = i.
Proof.
  intros Hi E. rewrite <- (id_from_int_int i) by (apply id_range_ok; exact Hi). rewrite <- E. unfold id_from_int.
  set (y := Z.shiftr x s). f_equal; bits.
Qed.
Lemma req_type_spec ty rq : req_type_of ty = Ok rq -> 0 <= rq < 16 /\ req_code ty = Some rq.
Proof. destruct ty; cbn; intros E; inversion E; split; (lia || reflexivity). Qed.
Lemma mem_kind ty k : kind_of ty = Some k -> (k = KReq32 \/ k = KReq64) -> type_in ty us_mem_types = true /\ type_in ty us_rq_types = true /\ type_in ty cfg_types = false /\
  exists rq ty0, req_type_of ty = Ok rq /\ type_of_req rq = Ok ty0 /\ 0 <= rq < 8 /\
    snd (type_code ty) = snd (type_code ty0) /\ fst (type_code ty) = fst (type_code ty0) + (match k with KReq64 => 1 | _ => 0 end) /\ (fst (type_code ty0) = 0 \/ fst (type_code ty0) = 2).
Proof.
  intros H K. destruct ty; cbn in H; try discriminate H; injection H as <-; try (destruct K; discriminate);
    (split; [reflexivity|]); (split; [reflexivity|]); (split; [reflexivity|]); do 2 eexists; (split; [reflexivity|]); (split; [reflexivity|]); cbn; lia.
Qed.
Lemma cfg_kind ty : kind_of ty = Some KCfg -> type_in ty us_rq_types = true /\ type_in ty cfg_types = true /\
  exists rq, req_type_of ty = Ok rq /\ type_of_req rq = Ok ty /\ 8 <= rq < 12.
Proof.
  intros H. destruct ty; cbn in H; try discriminate H; (split; [reflexivity|]); (split; [reflexivity|]); eexists; (split; [reflexivity|]); (split; [reflexivity|]); lia.
Qed.

Definition cq_frame (u : tlp_us) (rq : Z) (pl : list Z) : us_frame :=
  let t := u_tlp u in
  us_update_parity (mkUs ([addr0 t; addr1 t; cq2 t rq; cq3 u] ++ pl) (repeat 0 4 ++ payload_be (get_payload_size_dw t) (first_be t) (last_be t)) []
    (first_be t) (last_be t) (discontinue u) 0).

Lemma cq_pack ty k u : us_common ty (u_tlp u) -> us_mem_req ty k (u_tlp u) ->
  exists rq pl, req_type_of ty = Ok rq /\ to_dwords (data (u_tlp u)) = Ok pl /\ pack_us_cq u = Ok (cq_frame u rq pl).
Proof.
  intros C M. assert (K : k = KReq32 \/ k = KReq64) by (pose proof (um_addr _ _ _ M); destruct k; tauto).
  destruct (mem_kind ty k (um_kind _ _ _ M) K) as (T & _ & _ & rq & ty0 & E & _). destruct (to_dwords_any _ (uc_bytes _ _ C) (um_data _ _ _ M)) as (pl & Ep & _).
  exists rq, pl. split; [exact E|]. split; [exact Ep|]. unfold pack_us_cq.
  rewrite (proj2 (fmt_type_iff _ _) (uc_type _ _ C)). cbn [bind]. rewrite T, E. cbn [bind]. rewrite Ep. reflexivity.
Qed.
Lemma widen_ok t ty0 k x : (fst (type_code ty0) = 0 \/ fst (type_code ty0) = 2) -> fmt x = fst (type_code ty0) -> address x = address t ->
  (match k with KReq32 => 0 <= address t < 2 ^ 32 | KReq64 => 2 ^ 32 <= address t < 2 ^ 64 | _ => False end) ->
  widen x = set_fmt (fst (type_code ty0) + match k with KReq64 => 1 | _ => 0 end) x.
Proof.
  intros H F A R. unfold widen. rewrite A, F. destruct k; try tauto.
  - replace (address t >? 4294967295) with false by lia. rewrite Z.add_0_r, <- F. reflexivity.
  - replace (address t >? 4294967295) with true by lia. destruct H as [-> | ->]; reflexivity.
Qed.
Lemma cq3_fields u : let t := u_tlp u in 0 <= tag t < 256 -> 0 <= func (completer_id t) < 8 -> 0 <= bar_id u < 8 -> 0 <= bar_aperture u < 64 -> 0 <= tc t < 8 -> 0 <= attr t < 8 ->
  Z.land (cq3 u) 255 = tag t /\ Z.land (Z.shiftr (cq3 u) 25) 7 = tc t /\ Z.land (Z.shiftr (cq3 u) 28) 7 = attr t /\
  Z.land (Z.shiftr (cq3 u) 16) 7 = bar_id u /\ Z.land (Z.shiftr (cq3 u) 19) 0x3f = bar_aperture u.
Proof. cbv zeta. intros. unfold cq3. cbv zeta. repeat split; bits. Qed.
Lemma cq_round ty k u chk : us_common ty (u_tlp u) -> us_mem_req ty k (u_tlp u) ->
  0 <= func (completer_id (u_tlp u)) < 8 -> 0 <= bar_id u < 8 -> 0 <= bar_aperture u < 64 ->
  exists f, pack_us_cq u = Ok f /\ unpack_us_cq chk f = Ok (carried_cq u).
Proof.
  intros C M Hf Hb Ha. destruct (cq_pack ty k u C M) as (rq & pl & Er & Ep & E). exists (cq_frame u rq pl). split; [exact E|]. clear E.
  assert (K : k = KReq32 \/ k = KReq64) by (pose proof (um_addr _ _ _ M); destruct k; tauto).
  destruct (mem_kind ty k (um_kind _ _ _ M) K) as (_ & _ & _ & rq' & ty0 & Er' & Et & Rr & Cs & Cf & Fm). assert (rq' = rq) by congruence. subst rq'. clear Er'.
  destruct (to_dwords_any _ (uc_bytes _ _ C) (um_data _ _ _ M)) as (pl' & Ep' & _ & Op & _). assert (pl' = pl) by congruence. subst pl'. clear Ep'.
  pose proof (uc_tc _ _ C) as Htc. pose proof (uc_attr _ _ C) as Hat. pose proof (uc_tag _ _ C) as Htag. pose proof (uc_len _ _ C) as Hlen.
  pose proof (um_addr _ _ _ M) as Had. pose proof (um_align _ _ _ M) as Hal. pose proof (um_at _ _ _ M) as Hatt.
  set (t := u_tlp u) in *. pose proof (id_int_bound (requester_id t)) as Hid.
  destruct (addr_image t) as (I0 & I1 & _ & _); [destruct k; lia|exact Hal|lia|].
  assert (R2 : Z.land (Z.shiftr (cq2 t rq) 11) 15 = rq) by (unfold cq2; assert (0 <= rq < 16) by lia; bits).
  assert (Rl : Z.land (cq2 t rq) 2047 = tlen t) by (unfold cq2; assert (0 <= rq < 16) by lia; bits).
  assert (Ri : id_from_int (Z.shiftr (cq2 t rq) 16) = requester_id t).
  { apply id_field; [apply (uc_rid _ _ C)|]. unfold cq2. assert (0 <= rq < 16) by lia. bits. }
  assert (Fd : Z.land (Z.shiftr (cq3 u) 8) 255 = func (completer_id t)) by (unfold cq3; cbv zeta; fold t; assert (0 <= func (completer_id t) < 8) by lia; bits).
  unfold unpack_us_cq, cq_frame. cbn [us_data us_update_parity us_first_be us_last_be us_byte_en us_disc idx nth_error app bind skipn]. cbv zeta. fold t.
  rewrite R2, Et. cbn [bind]. replace (Z.land rq 8 =? 0) with true.
  2:{ symmetry. apply Z.eqb_eq. assert (0 <= rq < 8) by lia. bits. }
  rewrite I0, (tlp_at_ok _ Hatt). cbn [bind]. rewrite I1, Fd, Rl, Ri, Op.
  assert (Ec : pcie_id_new 0 0 (func (completer_id t)) = Ok (mkId 0 0 (func (completer_id t)))).
  { unfold pcie_id_new. cbn -[Z.ltb Z.gtb]. replace (func (completer_id t) <? 0) with false by lia. replace (func (completer_id t) >? 7) with false by lia. reflexivity. }
  rewrite Ec. cbn [bind]. match goal with |- context [widen ?x] => rewrite (widen_ok t ty0 k x Fm eq_refl eq_refl Had) end. rewrite <- Cf.
  unfold carried_cq, set_fmt_type. fold t. tlp_norm. unfold get_payload_size_dw. cbn [data].
  replace (zlist_eqb _ _) with true by (symmetry; apply zlist_eqb_eq; reflexivity). cbn [py_assert bind].
  match goal with |- context [if chk then py_assert (us_check_parity ?f) else _] => replace (us_check_parity f) with true by (symmetry; apply zlist_eqb_eq; reflexivity) end.
  cbn [py_assert]. assert (Q : (if chk then Ok tt else Ok tt) = Ok tt) by (destruct chk; reflexivity). rewrite Q. cbn [bind].
  pose proof (uc_type _ _ C) as Uc. fold t in Uc. rewrite <- Cs, Uc. cbn [fst snd].
  destruct (cq3_fields u) as (F1 & F2 & F3 & F4 & F5); fold t; try assumption. fold t in F1, F2, F3. rewrite F1, F2, F3, F4, F5. reflexivity.
Qed.

(** ** Requester requests *)
Definition rq_frame (u : tlp_us) (ty : tlp_type) (rq : Z) (pl : list Z) : us_frame :=
  let t := u_tlp u in
  us_update_parity (mkUs ([if type_in ty cfg_types then Z.land (address t) 0xffc else addr0 t; if type_in ty cfg_types then 0 else addr1 t; rq2 t rq; rq3 u (rid_enable u)] ++ pl) [] []
    (first_be t) (last_be t) (discontinue u) (seq_num u)).
Lemma rq_pack ty u : us_common ty (u_tlp u) -> type_in ty us_rq_types = true -> zlen (data (u_tlp u)) mod 4 = 0 ->
  exists rq pl, req_type_of ty = Ok rq /\ to_dwords (data (u_tlp u)) = Ok pl /\ pack_us_rq u = Ok (rq_frame u ty rq pl).
Proof.
  intros C T D. destruct (to_dwords_any _ (uc_bytes _ _ C) D) as (pl & Ep & _).
  assert (exists rq, req_type_of ty = Ok rq) as (rq & E) by (destruct ty; try discriminate T; eexists; reflexivity).
  exists rq, pl. split; [exact E|]. split; [exact Ep|]. unfold pack_us_rq, rq_frame.
  rewrite (proj2 (fmt_type_iff _ _) (uc_type _ _ C)). cbn [bind]. rewrite T, E. cbn [bind]. rewrite Ep. cbn [bind]. destruct (type_in ty cfg_types); reflexivity.
Qed.
Lemma rq2_fields t rq : 0 <= tlen t < 2048 -> 0 <= rq < 16 ->
  Z.land (Z.shiftr (rq2 t rq) 11) 15 = rq /\ Z.land (rq2 t rq) 2047 = tlen t /\ zbool (Z.land (rq2 t rq) (Z.shiftl 1 15)) = ep t /\
  Z.land (Z.shiftr (rq2 t rq) 16) 0xffff = id_int (requester_id t).
Proof.
  intros Hl Hr. pose proof (id_int_bound (requester_id t)) as Hid. unfold rq2. repeat split; [bits|bits| |bits].
  unfold zbool. destruct (ep t); cbn [Z.b2z].
  - replace (Z.land _ (Z.shiftl 1 15)) with 32768 by bits. reflexivity.
  - replace (Z.land _ (Z.shiftl 1 15)) with 0 by bits. reflexivity.
Qed.
Lemma rq3_fields u en : let t := u_tlp u in 0 <= tag t < 256 -> 0 <= tc t < 8 -> 0 <= attr t < 8 ->
  Z.land (rq3 u en) 255 = tag t /\ Z.land (Z.shiftr (rq3 u en) 25) 7 = tc t /\ Z.land (Z.shiftr (rq3 u en) 28) 7 = attr t /\
  Z.land (Z.shiftr (rq3 u en) 8) 0xffff = id_int (completer_id t) /\ zbool (Z.land (rq3 u en) (Z.shiftl 1 24)) = en.
Proof.
  cbv zeta. intros. unfold rq3. cbv zeta. pose proof (id_int_bound (completer_id (u_tlp u))). repeat split; [bits|bits|bits|bits|].
  unfold zbool. destruct en; cbn [Z.b2z].
  - replace (Z.land _ (Z.shiftl 1 24)) with 16777216 by bits. reflexivity.
  - replace (Z.land _ (Z.shiftl 1 24)) with 0 by bits. reflexivity.
Qed.
Ltac parity_ok chk :=
  match goal with |- context [if chk then py_assert (us_check_parity ?f) else _] => replace (us_check_parity f) with true by (symmetry; apply zlist_eqb_eq; reflexivity) end;
  cbn [py_assert]; replace (if chk then Ok tt else Ok tt) with (@Ok unit tt) by (destruct chk; reflexivity); cbn [bind].
Lemma rq_round_mem ty k u chk : us_common ty (u_tlp u) -> us_mem_req ty k (u_tlp u) -> id_range (completer_id (u_tlp u)) ->
  exists f, pack_us_rq u = Ok f /\ unpack_us_rq chk f = Ok (carried_rq u).
Proof.
  intros C M Ic.
  assert (K : k = KReq32 \/ k = KReq64) by (pose proof (um_addr _ _ _ M); destruct k; tauto).
  destruct (mem_kind ty k (um_kind _ _ _ M) K) as (_ & T & Tc & rq' & ty0 & Er' & Et & Rr & Cs & Cf & Fm).
  destruct (rq_pack ty u C T (um_data _ _ _ M)) as (rq & pl & Er & Ep & E). exists (rq_frame u ty rq pl). split; [exact E|]. clear E.
  assert (rq' = rq) by congruence. subst rq'. clear Er'.
  destruct (to_dwords_any _ (uc_bytes _ _ C) (um_data _ _ _ M)) as (pl' & Ep' & _ & Op & _). assert (pl' = pl) by congruence. subst pl'. clear Ep'.
  pose proof (uc_tc _ _ C) as Htc. pose proof (uc_attr _ _ C) as Hat. pose proof (uc_tag _ _ C) as Htag. pose proof (uc_len _ _ C) as Hlen.
  pose proof (um_addr _ _ _ M) as Had. pose proof (um_align _ _ _ M) as Hal. pose proof (um_at _ _ _ M) as Hatt. pose proof (uc_rid _ _ C) as Hri.
  pose proof (proj2 (fmt_type_iff _ _) (uc_type _ _ C)) as Ft. pose proof (uc_type _ _ C) as Uc.
  destruct (rq3_fields u (rid_enable u)) as (F1 & F2 & F3 & F4 & F5); try assumption.
  set (t := u_tlp u) in *.
  destruct (addr_image t) as (I0 & I1 & _ & _); [destruct k; lia|exact Hal|lia|].
  destruct (rq2_fields t rq) as (G1 & G2 & G3 & G4); [assumption|lia|].
  unfold unpack_us_rq, rq_frame. cbv zeta. fold t. rewrite Tc.
  cbn [us_data us_update_parity us_first_be us_last_be us_byte_en us_disc us_seq idx nth_error app bind skipn].
  rewrite G1, Et. cbn [bind]. replace (rq <? 12) with true by lia. replace (rq <? 8) with true by lia.
  rewrite I0, (tlp_at_ok _ Hatt). cbn [bind]. rewrite I1, G2, G3, (id_field _ _ _ Hri G4), (id_field _ _ _ Ic F4), Op, F1, F2, F3, F5. cbn [bind].
  match goal with |- context [widen ?x] => rewrite (widen_ok t ty0 k x Fm eq_refl eq_refl Had) end. rewrite <- Cf.
  unfold carried_rq, set_fmt_type. fold t. rewrite Ft, Tc. parity_ok chk. tlp_norm. rewrite <- Cs, Uc. reflexivity.
Qed.
Lemma rq_round_cfg ty u chk : us_common ty (u_tlp u) -> us_cfg_req ty (u_tlp u) -> id_range (completer_id (u_tlp u)) ->
  exists f, pack_us_rq u = Ok f /\ unpack_us_rq chk f = Ok (carried_rq u).
Proof.
  intros C M Ic.
  destruct (cfg_kind ty (ug_kind _ _ M)) as (T & Tc & rq' & Er' & Et & Rr).
  destruct (rq_pack ty u C T (ug_data _ _ M)) as (rq & pl & Er & Ep & E). exists (rq_frame u ty rq pl). split; [exact E|]. clear E.
  assert (rq' = rq) by congruence. subst rq'. clear Er'.
  destruct (to_dwords_any _ (uc_bytes _ _ C) (ug_data _ _ M)) as (pl' & Ep' & _ & Op & _). assert (pl' = pl) by congruence. subst pl'. clear Ep'.
  pose proof (uc_tc _ _ C) as Htc. pose proof (uc_attr _ _ C) as Hat. pose proof (uc_tag _ _ C) as Htag. pose proof (uc_len _ _ C) as Hlen.
  pose proof (ug_addr _ _ M) as Had. pose proof (ug_align _ _ M) as Hal. pose proof (uc_rid _ _ C) as Hri.
  pose proof (proj2 (fmt_type_iff _ _) (uc_type _ _ C)) as Ft. pose proof (uc_type _ _ C) as Uc.
  destruct (rq3_fields u (rid_enable u)) as (F1 & F2 & F3 & F4 & F5); try assumption.
  set (t := u_tlp u) in *.
  destruct (rq2_fields t rq) as (G1 & G2 & G3 & G4); [assumption|lia|].
  assert (A : Z.land (Z.land (address t) 0xffc) 0xffc = address t).
  { assert (exists b, address t = Z.shiftl b 2 /\ 0 <= b < 2 ^ 10) as (b & Eb & Hb).
    { exists (address t / 4). rewrite Z.shiftl_mul_pow2 by lia. change (2 ^ 2) with 4. lia. }
    rewrite Eb. bits. }
  unfold unpack_us_rq, rq_frame. cbv zeta. fold t. rewrite Tc.
  cbn [us_data us_update_parity us_first_be us_last_be us_byte_en us_disc us_seq idx nth_error app bind skipn].
  rewrite G1, Et. cbn [bind]. replace (rq <? 12) with true by lia. replace (rq <? 8) with false by lia.
  cbn [bind]. rewrite A, G2, G3, (id_field _ _ _ Hri G4), (id_field _ _ _ Ic F4), Op, F1, F2, F3, F5. cbn [bind].
  unfold carried_rq, set_fmt_type. fold t. rewrite Ft, Tc. parity_ok chk. tlp_norm. rewrite Uc. reflexivity.
Qed.

(** ** Completions *)
Definition cc_frame (u : tlp_us) (ty : tlp_type) (pl : list Z) : us_frame :=
  us_update_parity (mkUs ([cc0 (u_tlp u) (is_locked ty); cpl1 (u_tlp u); rq3 u (cid_enable u)] ++ pl) [] [] 0 0 (discontinue u) 0).
Definition rc_frame (u : tlp_us) (ty : tlp_type) (pl : list Z) : us_frame :=
  us_update_parity (mkUs ([rc0 u (is_locked ty); cpl1 (u_tlp u); rc2 u] ++ pl) (rc_byte_en (u_tlp u)) [] 0 0 (discontinue u) 0).
Lemma cpl_types ty : kind_of ty = Some KCpl -> type_in ty us_cpl_types = true /\ type_in ty [CPL_LOCKED; CPL_LOCKED_DATA] = is_locked ty.
Proof. destruct ty; intros H; try discriminate H; split; reflexivity. Qed.
Lemma cc_pack ty u : us_common ty (u_tlp u) -> us_cpl ty (u_tlp u) ->
  exists pl, to_dwords (data (u_tlp u)) = Ok pl /\ zlen pl = tlen (u_tlp u) /\ of_dwords pl = Ok (data (u_tlp u)) /\
    pack_us_cc u = Ok (cc_frame u ty pl) /\ pack_us_rc u = Ok (rc_frame u ty pl).
Proof.
  intros C M. destruct (to_dwords_any _ (uc_bytes _ _ C)) as (pl & Ep & L & Op & _); [rewrite (ul_data _ _ M); lia|]. pose proof (ul_data _ _ M) as D.
  exists pl. split; [exact Ep|]. split; [lia|]. split; [exact Op|]. destruct (cpl_types ty (ul_kind _ _ M)) as (T & Tl).
  unfold pack_us_cc, pack_us_rc. rewrite (proj2 (fmt_type_iff _ _) (uc_type _ _ C)). cbn [bind]. rewrite T, Tl, Ep. cbn [bind].
  unfold cc_frame, rc_frame. split; destruct (is_locked ty); reflexivity.
Qed.
Lemma cpl1_fields t : 0 <= tlen t < 2048 -> 0 <= status t < 8 ->
  Z.land (cpl1 t) 2047 = tlen t /\ Z.land (Z.shiftr (cpl1 t) 11) 7 = status t /\ zbool (Z.land (cpl1 t) (Z.shiftl 1 14)) = ep t /\
  Z.land (Z.shiftr (cpl1 t) 16) 0xffff = id_int (requester_id t).
Proof.
  intros Hl Hr. pose proof (id_int_bound (requester_id t)) as Hid. unfold cpl1. repeat split; [bits|bits| |bits].
  unfold zbool. destruct (ep t); cbn [Z.b2z].
  - replace (Z.land _ (Z.shiftl 1 14)) with 16384 by bits. reflexivity.
  - replace (Z.land _ (Z.shiftl 1 14)) with 0 by bits. reflexivity.
Qed.
Lemma rc2_rq3 u : rc2 u = rq3 u false.
Proof. unfold rc2, rq3. cbv zeta. cbn [Z.b2z]. rewrite Z.shiftl_0_l, Z.lor_0_r. reflexivity. Qed.
Lemma cc0_fields t lk : 0 <= lower_address t < 128 -> 0 <= at_ t < 4 -> 0 <= byte_count t < 8192 ->
  Z.land (cc0 t lk) 0x7f = lower_address t /\ Z.land (Z.shiftr (cc0 t lk) 8) 3 = at_ t /\ Z.land (Z.shiftr (cc0 t lk) 16) 0x1fff = byte_count t /\
  zbool (Z.land (cc0 t lk) (Z.shiftl 1 29)) = lk.
Proof.
  intros. unfold cc0. cbv zeta. unfold zbool. destruct lk.
  - repeat split; [bits|bits|bits|]. replace (Z.land _ (Z.shiftl 1 29)) with 536870912 by bits. reflexivity.
  - repeat split; [bits|bits|bits|]. replace (Z.land _ (Z.shiftl 1 29)) with 0 by bits. reflexivity.
Qed.
Lemma rc0_fields u lk : let t := u_tlp u in 0 <= lower_address t < 4096 -> 0 <= error_code u < 16 -> 0 <= byte_count t < 8192 ->
  Z.land (rc0 u lk) 0xfff = lower_address t /\ Z.land (Z.shiftr (rc0 u lk) 12) 0xf = error_code u /\ Z.land (Z.shiftr (rc0 u lk) 16) 0x1fff = byte_count t /\
  zbool (Z.land (rc0 u lk) (Z.shiftl 1 29)) = lk /\ Z.land (rc0 u lk) (Z.shiftl 1 30) = (if request_completed u =? 0 then 0 else 2 ^ 30).
Proof.
  cbv zeta. intros. unfold rc0, zbool. cbv zeta. destruct lk, (request_completed u =? 0); cbn [negb Z.b2z]; change (2 ^ 30) with 1073741824; (split; [bits|]); (split; [bits|]); (split; [bits|]); (split; [|bits]).
  1,2: replace (Z.land _ (Z.shiftl 1 29)) with 536870912 by bits; reflexivity.
  all: replace (Z.land _ (Z.shiftl 1 29)) with 0 by bits; reflexivity.
Qed.
Lemma slice_payload (a b c : Z) pl : slice 3 (3 + zlen pl) (a :: b :: c :: pl) = pl.
Proof.
  unfold slice. change (Z.to_nat 3) with 3%nat. cbn [skipn]. replace (3 + zlen pl - 3) with (zlen pl) by lia. unfold zlen. rewrite Nat2Z.id. apply firstn_all.
Qed.
Lemma cpl_fmt ty t : kind_of ty = Some KCpl -> type_code ty = (fmt t, type_ t) -> with_payload ty = (0 <? tlen t) ->
  type_ t = (if is_locked ty then 11 else 10) /\ fmt t = if tlen t >? 0 then 2 else 0.
Proof.
  rewrite Z.gtb_ltb. destruct ty; cbn; intros K E P; try discriminate K; injection E as <- <-; rewrite <- P; split; reflexivity.
Qed.
Lemma cc_round ty u chk : us_common ty (u_tlp u) -> us_cpl ty (u_tlp u) -> 0 <= lower_address (u_tlp u) < 128 ->
  (at_ (u_tlp u) = 0 \/ at_ (u_tlp u) = 1 \/ at_ (u_tlp u) = 2) ->
  exists f, pack_us_cc u = Ok f /\ unpack_us_cc chk f = Ok (carried_cc u).
Proof.
  intros C M Hla Hatt. destruct (cc_pack ty u C M) as (pl & Ep & L & Op & E & _). exists (cc_frame u ty pl). split; [exact E|]. clear E.
  pose proof (uc_tc _ _ C) as Htc. pose proof (uc_attr _ _ C) as Hat. pose proof (uc_tag _ _ C) as Htag. pose proof (uc_len _ _ C) as Hlen.
  pose proof (uc_rid _ _ C) as Hri. pose proof (ul_cid _ _ M) as Ic. pose proof (ul_count _ _ M) as Hbc. pose proof (ul_status _ _ M) as Hst.
  destruct (cpl_fmt ty _ (ul_kind _ _ M) (uc_type _ _ C) (ul_payload _ _ M)) as (Ty & Fm).
  destruct (rq3_fields u (cid_enable u)) as (F1 & F2 & F3 & F4 & F5); try assumption.
  set (t := u_tlp u) in *.
  destruct (cpl1_fields t) as (G1 & G2 & G3 & G4); [assumption|lia|].
  destruct (cc0_fields t (is_locked ty)) as (H1 & H2 & H3 & H4); try assumption; try lia.
  unfold unpack_us_cc, cc_frame. cbv zeta. fold t.
  cbn [us_data us_update_parity us_first_be us_last_be us_byte_en us_disc us_seq idx nth_error app bind].
  rewrite H2, (tlp_at_ok _ Hatt). cbn [bind]. rewrite H1, H3, H4, G1, G2, (cpl_status_ok _ Hst). cbn [bind].
  rewrite G3, (id_field _ _ _ Hri G4), (id_field _ _ _ Ic F4), F1, F2, F3, F5.
  match goal with |- context [if tlen (set_tlen (tlen t) ?x) >? 0 then set_fmt 2 ?y else ?y] =>
    set (t1 := if tlen (set_tlen (tlen t) x) >? 0 then set_fmt 2 y else y);
    assert (T1 : t1 = set_fmt (if tlen t >? 0 then 2 else 0) (set_type_ (if is_locked ty then 11 else 10) y)) by
      (unfold t1; change (tlen (set_tlen (tlen t) x)) with (tlen t); destruct (is_locked ty), (tlen t >? 0); reflexivity) end.
  clearbody t1. subst t1. rewrite <- Fm, <- Ty.
  match goal with |- context [if is_locked ty then ?a else ?b] => set (y := if is_locked ty then a else b);
    assert (Y : y = set_fmt 0 (set_type_ (if is_locked ty then 11 else 10) b)) by (unfold y; destruct (is_locked ty); reflexivity) end.
  clearbody y. subst y. tlp_cbn.
  replace (if tlen t >? 0 then of_dwords _ else _) with (Ok (data t)).
  2:{ destruct (tlen t >? 0) eqn:Z0; [rewrite <- L, slice_payload; symmetry; exact Op|]. pose proof (ul_data _ _ M) as D. fold t in D.
      destruct (data t); [reflexivity|]. unfold zlen in D. cbn [length] in D. lia. }
  cbn [bind]. unfold carried_cc, carried_cpl. fold t. parity_ok chk. reflexivity.
Qed.
Lemma rc_round ty u chk : us_common ty (u_tlp u) -> us_cpl ty (u_tlp u) -> 0 <= lower_address (u_tlp u) < 4096 -> 0 <= error_code u < 16 ->
  exists f, pack_us_rc u = Ok f /\ unpack_us_rc chk f = Ok (carried_rc u).
Proof.
  intros C M Hla Hec. destruct (cc_pack ty u C M) as (pl & Ep & L & Op & _ & E). exists (rc_frame u ty pl). split; [exact E|]. clear E.
  pose proof (uc_tc _ _ C) as Htc. pose proof (uc_attr _ _ C) as Hat. pose proof (uc_tag _ _ C) as Htag. pose proof (uc_len _ _ C) as Hlen.
  pose proof (uc_rid _ _ C) as Hri. pose proof (ul_cid _ _ M) as Ic. pose proof (ul_count _ _ M) as Hbc. pose proof (ul_status _ _ M) as Hst.
  destruct (cpl_fmt ty _ (ul_kind _ _ M) (uc_type _ _ C) (ul_payload _ _ M)) as (Ty & Fm).
  destruct (rq3_fields u false) as (F1 & F2 & F3 & F4 & F5); try assumption.
  destruct (rc0_fields u (is_locked ty)) as (H1 & H2 & H3 & H4 & H5); try assumption; try lia.
  set (t := u_tlp u) in *.
  destruct (cpl1_fields t) as (G1 & G2 & G3 & G4); [assumption|lia|].
  unfold unpack_us_rc, rc_frame. cbv zeta. fold t. rewrite rc2_rq3.
  cbn [us_data us_update_parity us_first_be us_last_be us_byte_en us_disc us_seq idx nth_error app bind].
  rewrite H1, H2, H3, H4, H5, G1, G2, (cpl_status_ok _ Hst). cbn [bind].
  rewrite G3, (id_field _ _ _ Hri G4), (id_field _ _ _ Ic F4), F1, F2, F3.
  match goal with |- context [if tlen (set_tlen (tlen t) ?x) >? 0 then set_fmt 2 ?y else ?y] =>
    set (t1 := if tlen (set_tlen (tlen t) x) >? 0 then set_fmt 2 y else y);
    assert (T1 : t1 = set_fmt (if tlen t >? 0 then 2 else 0) (set_type_ (if is_locked ty then 11 else 10) y)) by
      (unfold t1; change (tlen (set_tlen (tlen t) x)) with (tlen t); destruct (is_locked ty), (tlen t >? 0); reflexivity) end.
  clearbody t1. subst t1. rewrite <- Fm, <- Ty.
  match goal with |- context [if is_locked ty then ?a else ?b] => set (y := if is_locked ty then a else b);
    assert (Y : y = set_fmt 0 (set_type_ (if is_locked ty then 11 else 10) b)) by (unfold y; destruct (is_locked ty); reflexivity) end.
  clearbody y. subst y. tlp_cbn.
  replace (if tlen t >? 0 then of_dwords _ else _) with (Ok (data t)).
  2:{ destruct (tlen t >? 0) eqn:Z0; [rewrite <- L, slice_payload; symmetry; exact Op|]. pose proof (ul_data _ _ M) as D. fold t in D.
      destruct (data t); [reflexivity|]. unfold zlen in D. cbn [length] in D. lia. }
  cbn [bind]. match goal with |- context [rc_byte_en ?x] => replace (rc_byte_en x) with (rc_byte_en t) end.
  2:{ reflexivity. }
  replace (zlist_eqb _ _) with true by (symmetry; apply zlist_eqb_eq; reflexivity). cbn [py_assert bind].
  unfold carried_rc, carried_cpl. fold t. parity_ok chk. reflexivity.
Qed.

(** ** Layouts *)
Ltac fbits := match goal with
  | |- field ?v ?a ?w = _ => rewrite field_bits by lia; let o := eval cbv in (Z.ones w) in change (Z.ones w) with o
  end.
Lemma addr_layout t : 0 <= address t < 2 ^ 64 -> address t mod 4 = 0 -> 0 <= at_ t < 4 ->
  field (addr0 t) 0 2 = at_ t /\ field (addr0 t) 2 30 = field (address t) 2 30 /\ addr1 t = address t / 2 ^ 32.
Proof.
  intros Ha Hm Hp. assert (exists b, address t = Z.shiftl b 2 /\ 0 <= b < 2 ^ 62) as (b & E & Hb).
  { exists (address t / 4). rewrite Z.shiftl_mul_pow2 by lia. change (2 ^ 2) with 4. lia. }
  rewrite <- (Z.shiftr_div_pow2 (address t) 32) by lia. rewrite !field_bits by lia. change (Z.ones 2) with 3. change (Z.ones 30) with 1073741823.
  unfold addr0, addr1. rewrite E. repeat split; bits.
Qed.
Lemma cq_layout ty k u : us_common ty (u_tlp u) -> us_mem_req ty k (u_tlp u) ->
  0 <= func (completer_id (u_tlp u)) < 8 -> 0 <= bar_id u < 8 -> 0 <= bar_aperture u < 64 ->
  exists f pl, pack_us_cq u = Ok f /\ layout_cq ty u f /\ us_data f = firstn 4 (us_data f) ++ pl /\ word_bytes_at (data (u_tlp u)) pl.
Proof.
  intros C M Hf Hb Ha. destruct (cq_pack ty k u C M) as (rq & pl & Er & Ep & E). exists (cq_frame u rq pl), pl. split; [exact E|].
  destruct (to_dwords_any _ (uc_bytes _ _ C) (um_data _ _ _ M)) as (pl' & Ep' & _ & _ & _ & W). assert (pl' = pl) by congruence. subst pl'.
  split; [|split; [reflexivity|exact W]].
  destruct (req_type_spec _ _ Er) as (Rr & Rc).
  pose proof (uc_tc _ _ C) as Htc. pose proof (uc_attr _ _ C) as Hat. pose proof (uc_tag _ _ C) as Htag. pose proof (uc_len _ _ C) as Hlen.
  pose proof (um_addr _ _ _ M) as Had. pose proof (um_align _ _ _ M) as Hal. pose proof (um_at _ _ _ M) as Hatt.
  pose proof (id_int_bound (requester_id (u_tlp u))) as Hid.
  unfold layout_cq, layout_addr, dw, cq_frame. cbn [us_data us_update_parity nth app]. cbv zeta.
  set (t := u_tlp u) in *. split; [apply addr_layout; [destruct k; lia|exact Hal|lia]|].
  rewrite <- (id_int_id16 _ (uc_rid _ _ C)). fold t. unfold cq2, cq3. cbv zeta. fold t.
  split; [fbits; bits|]. split; [rewrite Rc; f_equal; symmetry; fbits; bits|]. repeat split; fbits; bits.
Qed.
Lemma rq_layout ty u : us_common ty (u_tlp u) -> (us_cfg_req ty (u_tlp u) \/ exists k, us_mem_req ty k (u_tlp u)) -> id_range (completer_id (u_tlp u)) ->
  exists f pl, pack_us_rq u = Ok f /\ layout_rq ty u f /\ us_data f = firstn 4 (us_data f) ++ pl /\ word_bytes_at (data (u_tlp u)) pl.
Proof.
  intros C M Ic.
  assert (TD : type_in ty us_rq_types = true /\ zlen (data (u_tlp u)) mod 4 = 0).
  { destruct M as [M|(k & M)].
    - split; [apply (cfg_kind ty (ug_kind _ _ M))|apply (ug_data _ _ M)].
    - assert (K : k = KReq32 \/ k = KReq64) by (pose proof (um_addr _ _ _ M); destruct k; tauto).
      split; [apply (mem_kind ty k (um_kind _ _ _ M) K)|apply (um_data _ _ _ M)]. }
  destruct TD as (T & D). destruct (rq_pack ty u C T D) as (rq & pl & Er & Ep & E). exists (rq_frame u ty rq pl), pl. split; [exact E|].
  destruct (to_dwords_any _ (uc_bytes _ _ C) D) as (pl' & Ep' & _ & _ & _ & W). assert (pl' = pl) by congruence. subst pl'.
  split; [|split; [reflexivity|exact W]].
  destruct (req_type_spec _ _ Er) as (Rr & Rc).
  pose proof (uc_tc _ _ C) as Htc. pose proof (uc_attr _ _ C) as Hat. pose proof (uc_tag _ _ C) as Htag. pose proof (uc_len _ _ C) as Hlen.
  pose proof (id_int_bound (requester_id (u_tlp u))) as Hid. pose proof (id_int_bound (completer_id (u_tlp u))) as Hcd.
  unfold layout_rq, layout_addr, dw, rq_frame. cbn [us_data us_update_parity nth app]. cbv zeta.
  rewrite <- (id_int_id16 _ (uc_rid _ _ C)), <- (id_int_id16 _ Ic).
  set (t := u_tlp u) in *. split.
  { destruct M as [M|(k & M)].
    - destruct (cfg_kind ty (ug_kind _ _ M)) as (_ & Tc & _). rewrite Tc. split; [|reflexivity].
      pose proof (ug_addr _ _ M) as Had. pose proof (ug_align _ _ M) as Hal.
      assert (exists b, address t = Z.shiftl b 2 /\ 0 <= b < 2 ^ 10) as (b & Eb & Hb).
      { exists (address t / 4). rewrite Z.shiftl_mul_pow2 by lia. change (2 ^ 2) with 4. lia. }
      rewrite Eb. bits.
    - assert (K : k = KReq32 \/ k = KReq64) by (pose proof (um_addr _ _ _ M); destruct k; tauto).
      destruct (mem_kind ty k (um_kind _ _ _ M) K) as (_ & _ & Tc & _). rewrite Tc.
      pose proof (um_addr _ _ _ M) as Had. pose proof (um_align _ _ _ M) as Hal. pose proof (um_at _ _ _ M) as Hatt.
      apply addr_layout; [destruct k; lia|exact Hal|lia]. }
  unfold rq2, rq3. cbv zeta. fold t.
  split; [fbits; bits|]. split; [rewrite Rc; f_equal; symmetry; fbits; bits|]. split; [unfold flag; destruct (ep t); cbn [Z.b2z]; fbits; bits|].
  split; [fbits; bits|]. split; [fbits; bits|]. split; [fbits; bits|]. split; [unfold flag; destruct (rid_enable u); cbn [Z.b2z]; fbits; bits|]. repeat split; fbits; bits.
Qed.
Lemma cpl1_layout t : 0 <= tlen t < 2048 -> 0 <= status t < 8 ->
  field (cpl1 t) 0 11 = tlen t /\ field (cpl1 t) 11 3 = status t /\ field (cpl1 t) 14 1 = flag (ep t) /\ field (cpl1 t) 15 1 = 0 /\ field (cpl1 t) 16 16 = id_int (requester_id t).
Proof.
  intros Hl Hr. pose proof (id_int_bound (requester_id t)) as Hid. unfold cpl1, flag. destruct (ep t); cbn [Z.b2z]; repeat split; fbits; bits.
Qed.
Lemma rq3_layout u en : let t := u_tlp u in 0 <= tag t < 256 -> 0 <= tc t < 8 -> 0 <= attr t < 8 ->
  field (rq3 u en) 0 8 = tag t /\ field (rq3 u en) 8 16 = id_int (completer_id t) /\ field (rq3 u en) 25 3 = tc t /\ field (rq3 u en) 28 3 = attr t /\
  field (rq3 u en) 31 1 = 0 /\ field (rq3 u en) 24 1 = flag en.
Proof.
  cbv zeta. intros. pose proof (id_int_bound (completer_id (u_tlp u))). unfold rq3, flag. cbv zeta. destruct en; cbn [Z.b2z]; repeat split; fbits; bits.
Qed.
Lemma cc_layout ty u : us_common ty (u_tlp u) -> us_cpl ty (u_tlp u) -> 0 <= lower_address (u_tlp u) < 128 -> 0 <= at_ (u_tlp u) < 4 ->
  exists f pl, pack_us_cc u = Ok f /\ layout_cc ty u f /\ us_data f = firstn 3 (us_data f) ++ pl /\ word_bytes_at (data (u_tlp u)) pl.
Proof.
  intros C M Hla Hatt. destruct (cc_pack ty u C M) as (pl & Ep & L & Op & E & _). exists (cc_frame u ty pl), pl. split; [exact E|].
  destruct (to_dwords_any _ (uc_bytes _ _ C)) as (pl' & Ep' & _ & _ & _ & W); [rewrite (ul_data _ _ M); lia|]. assert (pl' = pl) by congruence. subst pl'.
  split; [|split; [reflexivity|exact W]].
  pose proof (uc_tc _ _ C) as Htc. pose proof (uc_attr _ _ C) as Hat. pose proof (uc_tag _ _ C) as Htag. pose proof (uc_len _ _ C) as Hlen.
  pose proof (ul_count _ _ M) as Hbc. pose proof (ul_status _ _ M) as Hst.
  unfold layout_cc, layout_cpl, dw, cc_frame. cbn [us_data us_update_parity nth app]. cbv zeta.
  rewrite <- (id_int_id16 _ (uc_rid _ _ C)), <- (id_int_id16 _ (ul_cid _ _ M)).
  destruct (rq3_layout u (cid_enable u)) as (F1 & F2 & F3 & F4 & F5 & F6); try assumption.
  destruct (cpl1_layout (u_tlp u)) as (G1 & G2 & G3 & G4 & G5); [assumption|lia|].
  repeat split; try assumption; unfold cc0, flag; cbv zeta; destruct (is_locked ty); fbits; bits.
Qed.
Lemma rc_layout ty u : us_common ty (u_tlp u) -> us_cpl ty (u_tlp u) -> 0 <= lower_address (u_tlp u) < 4096 -> 0 <= error_code u < 16 ->
  exists f pl, pack_us_rc u = Ok f /\ layout_rc ty u f /\ us_data f = firstn 3 (us_data f) ++ pl /\ word_bytes_at (data (u_tlp u)) pl.
Proof.
  intros C M Hla Hec. destruct (cc_pack ty u C M) as (pl & Ep & L & Op & _ & E). exists (rc_frame u ty pl), pl. split; [exact E|].
  destruct (to_dwords_any _ (uc_bytes _ _ C)) as (pl' & Ep' & _ & _ & _ & W); [rewrite (ul_data _ _ M); lia|]. assert (pl' = pl) by congruence. subst pl'.
  split; [|split; [reflexivity|exact W]].
  pose proof (uc_tc _ _ C) as Htc. pose proof (uc_attr _ _ C) as Hat. pose proof (uc_tag _ _ C) as Htag. pose proof (uc_len _ _ C) as Hlen.
  pose proof (ul_count _ _ M) as Hbc. pose proof (ul_status _ _ M) as Hst.
  unfold layout_rc, layout_cpl, dw, rc_frame. cbn [us_data us_update_parity nth app]. cbv zeta. rewrite rc2_rq3.
  rewrite <- (id_int_id16 _ (uc_rid _ _ C)), <- (id_int_id16 _ (ul_cid _ _ M)).
  destruct (rq3_layout u false) as (F1 & F2 & F3 & F4 & F5 & F6); try assumption.
  destruct (cpl1_layout (u_tlp u)) as (G1 & G2 & G3 & G4 & G5); [assumption|lia|].
  repeat split; try assumption; unfold rc0, flag, zbool; cbv zeta; destruct (is_locked ty), (request_completed u =? 0); cbn [negb Z.b2z]; fbits; bits.
Qed.

(** ** Byte enables *)
Lemma payload_be_nth n first last i : 0 <= i < n ->
  nth (Z.to_nat i) (payload_be n first last) 0 = if i =? 0 then first else if i =? n - 1 then last else 15.
Proof.
  intros H. unfold payload_be. replace (n >=? 1) with true by lia. cbn [app].
  destruct (Z.eqb_spec i 0) as [->|N]; [reflexivity|]. replace (Z.to_nat i) with (S (Z.to_nat (i - 1))) by lia. cbn [nth].
  replace (n >? 1) with true by lia. destruct (Z.eqb_spec i (n - 1)) as [->|N1].
  - rewrite app_nth2; destruct (n >? 2) eqn:G; rewrite ?repeat_length; cbn [length]; try lia.
    + replace (_ - _)%nat with 0%nat by lia. reflexivity.
    + replace (_ - _)%nat with 0%nat by lia. reflexivity.
  - replace (n >? 2) with true by lia. rewrite app_nth1 by (rewrite repeat_length; lia). 
    rewrite nth_indep with (d' := 15) by (rewrite repeat_length; lia). apply nth_repeat.
Qed.
Lemma payload_be_len n first last : 0 <= n -> zlen (payload_be n first last) = n.
Proof.
  intros H. unfold payload_be, zlen. rewrite !app_length. destruct (n >=? 1) eqn:A, (n >? 2) eqn:B, (n >? 1) eqn:D; rewrite ?repeat_length; cbn [length]; lia.
Qed.
Lemma cq_be ty k u f i : us_common ty (u_tlp u) -> us_mem_req ty k (u_tlp u) -> pack_us_cq u = Ok f ->
  zlen (us_byte_en f) = 4 + zlen (data (u_tlp u)) / 4 /\
  (0 <= i < 4 -> nth (Z.to_nat i) (us_byte_en f) 0 = 0) /\
  (0 <= i < zlen (data (u_tlp u)) / 4 -> nth (Z.to_nat (4 + i)) (us_byte_en f) 0 =
     if i =? 0 then first_be (u_tlp u) else if i =? zlen (data (u_tlp u)) / 4 - 1 then last_be (u_tlp u) else 15).
Proof.
  intros C M E. destruct (cq_pack ty k u C M) as (rq & pl & Er & Ep & E'). rewrite E' in E. apply Ok_inj in E. subst f.
  unfold cq_frame. cbn [us_byte_en us_update_parity]. set (t := u_tlp u). unfold get_payload_size_dw. set (n := zlen (data t) / 4).
  assert (N : 0 <= n) by (unfold n, zlen; lia). split; [|split].
  - pose proof (payload_be_len n (first_be t) (last_be t) N) as P. unfold zlen in *. rewrite app_length. cbn [repeat length]. lia.
  - intros H. rewrite app_nth1 by (cbn [repeat length]; lia). assert (J : i = 0 \/ i = 1 \/ i = 2 \/ i = 3) by lia. destruct J as [->|[->|[->| ->]]]; reflexivity.
  - intros H. rewrite app_nth2 by (cbn [repeat length]; lia). cbn [repeat length]. replace (Z.to_nat (4 + i) - 4)%nat with (Z.to_nat i) by lia. apply payload_be_nth. exact H.
Qed.
Lemma rc_be_bits la bc n i j : 0 <= la < 4096 -> 0 <= bc < 8192 -> 0 <= i < n -> 0 <= j < 4 -> 4 * (n - 1) < la mod 4 + bc ->
  let first := Z.land (Z.shiftl 0xf (Z.land la 3)) 0xf in
  let last := if bc + Z.land la 3 >? n * 4 then 0xf else Z.shiftr 0xf (Z.land (4 - bc - la) 3) in
  Z.testbit (if i =? 0 then (if n =? 1 then Z.land first last else first) else if i =? n - 1 then last else 15) j =
  (la mod 4 <=? 4 * i + j) && (4 * i + j <? la mod 4 + bc).
Proof.
  intros Hla Hbc Hi Hj Hn first last.
  assert (A3 : Z.land la 3 = la mod 4) by (change 3 with (Z.ones 2); rewrite Z.land_ones by lia; reflexivity).
  assert (F : Z.testbit first j = (la mod 4 <=? j)).
  { unfold first. rewrite A3. assert (R : la mod 4 = 0 \/ la mod 4 = 1 \/ la mod 4 = 2 \/ la mod 4 = 3) by lia. assert (J : j = 0 \/ j = 1 \/ j = 2 \/ j = 3) by lia.
    destruct R as [->|[->|[->| ->]]], J as [->|[->|[->| ->]]]; reflexivity. }
  assert (L : Z.testbit last j = (4 * (n - 1) + j <? la mod 4 + bc)).
  { unfold last. rewrite A3. destruct (bc + la mod 4 >? n * 4) eqn:G.
    - replace (4 * (n - 1) + j <? la mod 4 + bc) with true by lia. assert (J : j = 0 \/ j = 1 \/ j = 2 \/ j = 3) by lia. destruct J as [->|[->|[->| ->]]]; reflexivity.
    - change 3 with (Z.ones 2) at 1. rewrite Z.land_ones by lia. change (2 ^ 2) with 4.
      replace ((4 - bc - la) mod 4) with (4 * n - (la mod 4 + bc)) by lia.
      assert (R : 4 * n - (la mod 4 + bc) = 0 \/ 4 * n - (la mod 4 + bc) = 1 \/ 4 * n - (la mod 4 + bc) = 2 \/ 4 * n - (la mod 4 + bc) = 3) by lia.
      assert (Q : Z.testbit (Z.shiftr 15 (4 * n - (la mod 4 + bc))) j = (j <? 4 - (4 * n - (la mod 4 + bc)))).
      { assert (J : j = 0 \/ j = 1 \/ j = 2 \/ j = 3) by lia. destruct R as [->|[->|[->| ->]]], J as [->|[->|[->| ->]]]; reflexivity. }
      rewrite Q. apply Bool.eq_iff_eq_true. rewrite !Z.ltb_lt. lia. }
  destruct (Z.eqb_spec i 0) as [->|N0].
  - destruct (Z.eqb_spec n 1) as [->|N1].
    + rewrite Z.land_spec, F, L. reflexivity.
    + rewrite F. change (4 * 0 + j) with j. replace (j <? la mod 4 + bc) with true by lia. rewrite andb_true_r. reflexivity.
  - replace (la mod 4 <=? 4 * i + j) with true by lia. cbn [andb]. destruct (Z.eqb_spec i (n - 1)) as [->|N2]; [exact L|].
    replace (4 * i + j <? la mod 4 + bc) with true by lia. assert (J : j = 0 \/ j = 1 \/ j = 2 \/ j = 3) by lia. destruct J as [->|[->|[->| ->]]]; reflexivity.
Qed.
Lemma rc_be ty u f : us_common ty (u_tlp u) -> us_cpl ty (u_tlp u) -> 0 <= lower_address (u_tlp u) < 4096 -> pack_us_rc u = Ok f ->
  let t := u_tlp u in
  zlen (us_byte_en f) = 3 + tlen t /\ (forall i j, 0 <= i < 3 -> be_bit f i j = false) /\
  (4 * (tlen t - 1) < lower_address t mod 4 + byte_count t -> forall i j, 0 <= i < tlen t -> 0 <= j < 4 ->
     be_bit f (3 + i) j = (lower_address t mod 4 <=? 4 * i + j) && (4 * i + j <? lower_address t mod 4 + byte_count t)).
Proof.
  intros C M Hla E t. destruct (cc_pack ty u C M) as (pl & Ep & L & Op & _ & E'). rewrite E' in E. apply Ok_inj in E. subst f.
  pose proof (ul_data _ _ M) as D. pose proof (uc_len _ _ C) as Hl. pose proof (ul_count _ _ M) as Hbc. fold t in D, Hl, Hbc, Hla.
  unfold be_bit, rc_frame. cbn [us_byte_en us_update_parity]. fold t. unfold rc_byte_en, get_payload_size_dw. replace (zlen (data t) / 4) with (tlen t) by lia.
  set (first := Z.land (Z.shiftl 0xf (Z.land (lower_address t) 3)) 0xf).
  set (last := if byte_count t + Z.land (lower_address t) 3 >? tlen t * 4 then 0xf else Z.shiftr 0xf (Z.land (4 - byte_count t - lower_address t) 3)).
  cbv zeta. replace (let '(a, b) := if tlen t =? 1 then (Z.land first last, 0) else (first, last) in repeat 0 3 ++ payload_be (tlen t) a b)
    with (repeat 0 3 ++ payload_be (tlen t) (if tlen t =? 1 then Z.land first last else first) (if tlen t =? 1 then 0 else last)) by (destruct (tlen t =? 1); reflexivity).
  split; [|split].
  - pose proof (payload_be_len (tlen t) (if tlen t =? 1 then Z.land first last else first) (if tlen t =? 1 then 0 else last) ltac:(lia)) as P.
    unfold zlen in *. rewrite app_length. cbn [repeat length]. lia.
  - intros i j H. rewrite app_nth1 by (cbn [repeat length]; lia). assert (J : i = 0 \/ i = 1 \/ i = 2) by lia. destruct J as [->|[->| ->]]; apply Z.testbit_0_l.
  - intros Hn i j Hi Hj. rewrite app_nth2 by (cbn [repeat length]; lia). cbn [repeat length]. replace (Z.to_nat (3 + i) - 3)%nat with (Z.to_nat i) by lia.
    rewrite payload_be_nth by exact Hi. rewrite <- (rc_be_bits (lower_address t) (byte_count t) (tlen t) i j) by (try assumption; lia). fold first. fold last. cbv zeta.
    f_equal. destruct (Z.eqb_spec i 0) as [->|N]; [reflexivity|]. destruct (Z.eqb_spec i (tlen t - 1)) as [->|N1]; [|reflexivity].
    replace (tlen t =? 1) with false by lia. reflexivity.
Qed.

(** ** Parity *)
Definition raises {A} (r : res A) : Prop := exists e, r = Err e.
Lemma bind_raises {A B} (a : res A) (g : A -> res B) : (forall x, raises (g x)) -> raises (bind a g).
Proof. intros H. destruct a as [x|e]; cbn; [apply H|eexists; reflexivity]. Qed.
Ltac raising := repeat (match goal with
  | |- raises (bind ?a _) => lazymatch a with context [us_check_parity] => fail | _ => apply bind_raises; intros ? end
  | _ => progress cbv zeta
  end).
Lemma cc_bad f : us_check_parity f = false -> raises (unpack_us_cc true f).
Proof. intros P. unfold unpack_us_cc. raising. rewrite P. eexists; reflexivity. Qed.
Lemma rc_bad f : us_check_parity f = false -> raises (unpack_us_rc true f).
Proof. intros P. unfold unpack_us_rc. raising. rewrite P. eexists; reflexivity. Qed.
Lemma rq_bad f : us_check_parity f = false -> raises (unpack_us_rq true f).
Proof.
  intros P. unfold unpack_us_rq. raising. destruct (_ <? 12); [|eexists; reflexivity]. raising. rewrite P. eexists; reflexivity.
Qed.
Lemma cq_bad f d2 : us_check_parity f = false -> nth_error (us_data f) 2 = Some d2 -> Z.testbit d2 14 = false -> raises (unpack_us_cq true f).
Proof.
  intros P E B. unfold unpack_us_cq. unfold idx at 1. rewrite E. cbn [bind]. cbv zeta. raising.
  replace (Z.land (Z.land (Z.shiftr d2 11) 15) 8 =? 0) with true.
  2:{ symmetry. apply Z.eqb_eq. apply Z.bits_inj'. intros m Hm. rewrite !Z.land_spec, Z.bits_0, Z.shiftr_spec by lia. change 8 with (2 ^ 3). rewrite Z.pow2_bits_eqb by lia.
      destruct (Z.eqb_spec 3 m) as [<-|N]; [|rewrite andb_false_r; reflexivity]. change (3 + 11) with 14. rewrite B. reflexivity. }
  raising. rewrite P. eexists; reflexivity.
Qed.
Lemma bit3 r : 0 <= r < 8 -> Z.testbit r 3 = false.
Proof.
  intros H. assert (J : r = 0 \/ r = 1 \/ r = 2 \/ r = 3 \/ r = 4 \/ r = 5 \/ r = 6 \/ r = 7) by lia.
  destruct J as [->|[->|[->|[->|[->|[->|[->| ->]]]]]]]; reflexivity.
Qed.
Lemma cq2_bit14 t rq : 0 <= rq < 8 -> Z.testbit (cq2 t rq) 14 = false.
Proof.
  intros R. unfold cq2. rewrite Z.lor_spec, Z.lor_spec, Z.land_spec. rewrite (Z.shiftl_spec rq 11 14) by lia. rewrite (Z.shiftl_spec (id_int (requester_id t)) 16 14) by lia.
  rewrite (Z.testbit_neg_r (id_int (requester_id t)) (14 - 16)) by lia. change (14 - 11) with 3. rewrite (bit3 rq R). change (Z.testbit 2047 14) with false.
  rewrite andb_false_r. reflexivity.
Qed.
Lemma cq_corrupt ty k u f i e d : us_common ty (u_tlp u) -> us_mem_req ty k (u_tlp u) -> pack_us_cq u = Ok f ->
  nth_error (us_data f) i = Some d -> odd_flip e -> (i = 2%nat -> Z.testbit e 14 = false) ->
  raises (unpack_us_cq true (with_us (flip i e (us_data f)) (us_parity f) f)).
Proof.
  intros C M E Hi O B. destruct (cq_pack ty k u C M) as (rq & pl & Er & Ep & E'). rewrite E' in E. apply Ok_inj in E. subst f.
  assert (K : k = KReq32 \/ k = KReq64) by (pose proof (um_addr _ _ _ M); destruct k; tauto).
  destruct (mem_kind ty k (um_kind _ _ _ M) K) as (_ & _ & _ & rq' & ty0 & Er' & Et & Rr & _). assert (rq' = rq) by congruence. subst rq'.
  set (f := cq_frame u rq pl) in *. assert (P : us_check_parity f = true) by apply us_parity_ok.
  assert (D2 : nth_error (us_data f) 2 = Some (cq2 (u_tlp u) rq)) by reflexivity.
  assert (B2 : Z.testbit (cq2 (u_tlp u) rq) 14 = false).
  { exact (cq2_bit14 _ _ Rr). }
  destruct (flip_split i e _ _ Hi) as (a & b & S1 & S2 & La).
  assert (N : exists d2, nth_error (flip i e (us_data f)) 2 = Some d2 /\ Z.testbit d2 14 = false).
  { destruct (Nat.eq_dec i 2) as [->|N].
    - exists (Z.lxor d e). split; [rewrite S2, nth_error_app2 by lia; rewrite La; reflexivity|]. rewrite Z.lxor_spec, (B eq_refl), xorb_false_r. congruence.
    - exists (cq2 (u_tlp u) rq). split; [|exact B2]. rewrite S1 in D2. rewrite S2. destruct (Nat.lt_ge_cases 2 i).
      + rewrite nth_error_app1 in * by lia. exact D2.
      + rewrite nth_error_app2 in * by lia. destruct (2 - length a)%nat eqn:Q; [lia|exact D2]. }
  destruct N as (d2 & N1 & N2). apply (cq_bad _ d2).
  - apply us_detect with (d := d); assumption.
  - exact N1.
  - exact N2.
Qed.
Lemma cq_corrupt_par ty k u f p : us_common ty (u_tlp u) -> us_mem_req ty k (u_tlp u) -> pack_us_cq u = Ok f -> p <> us_parity f ->
  raises (unpack_us_cq true (with_us (us_data f) p f)).
Proof.
  intros C M E Hp. destruct (cq_pack ty k u C M) as (rq & pl & Er & Ep & E'). rewrite E' in E. apply Ok_inj in E. subst f.
  assert (K : k = KReq32 \/ k = KReq64) by (pose proof (um_addr _ _ _ M); destruct k; tauto).
  destruct (mem_kind ty k (um_kind _ _ _ M) K) as (_ & _ & _ & rq' & ty0 & Er' & Et & Rr & _). assert (rq' = rq) by congruence. subst rq'.
  apply (cq_bad _ (cq2 (u_tlp u) rq)).
  - apply us_detect_par; [apply us_parity_ok|exact Hp].
  - reflexivity.
  - exact (cq2_bit14 _ _ Rr).
Qed.
Lemma pack_parity u f : pack_us_cc u = Ok f \/ pack_us_rq u = Ok f \/ pack_us_rc u = Ok f -> us_check_parity f = true.
Proof.
  intros [E|[E|E]]; [unfold pack_us_cc in E|unfold pack_us_rq in E|unfold pack_us_rc in E]; destruct (fmt_type (u_tlp u)) as [ty|]; cbn [bind] in E; try discriminate E;
    match type of E with (if ?b then _ else _) = _ => destruct b; [|discriminate E] end; cbv zeta in E.
  1,3: destruct (to_dwords _) as [pl|]; cbn [bind] in E; [|discriminate E]; apply Ok_inj in E; subst f; apply us_parity_ok.
  destruct (if type_in ty cfg_types then _ else _) as [a b] in E. destruct (req_type_of ty) as [rq|]; cbn [bind] in E; [|discriminate E].
  destruct (to_dwords _) as [pl|]; cbn [bind] in E; [|discriminate E]. apply Ok_inj in E; subst f. apply us_parity_ok.
Qed.
