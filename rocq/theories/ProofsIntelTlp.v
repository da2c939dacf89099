(** Intel frames made from TLPs. *)
From Verif Require Import Base BaseProofs Bits ModelUtils ModelTlp ModelFrames ModelIntel SpecTlp SpecParity SpecIntel ProofsTlp ProofsTlpCodec ProofsParity.

(** * Words *)
Definition word_ok (d : Z) := 0 <= d < 2 ^ 32.
Lemma collect_map_ok {A B} (f : A -> res B) g l : (forall x, In x l -> f x = Ok (g x)) -> collect (map f l) = Ok (map g l).
Proof.
  induction l as [|x l IH]; intros H; [reflexivity|]. cbn [map collect]. rewrite (H x) by (left; reflexivity). cbn [bind].
  rewrite IH by (intros; apply H; right; assumption). reflexivity.
Qed.
Lemma get_words_cons unp dec : (forall p o, unp 4%nat p o = if (o + 4 <=? length p)%nat then Ok (dec (firstn 4 (skipn o p))) else Err StructError) ->
  forall w p, length w = 4%nat -> get_words unp (w ++ p) = (xs <- get_words unp p ;; Ok (dec w :: xs)).
Proof.
  intros unp_def w p L. unfold get_words. rewrite app_length, L. replace ((4 + length p + 3) / 4)%nat with (Datatypes.S ((length p + 3) / 4)).
  2:{ replace (4 + length p + 3)%nat with (length p + 3 + 1 * 4)%nat by lia. rewrite Nat.div_add by lia. lia. }
  cbn [List.seq map collect]. rewrite unp_def. replace (4 * 0 + 4 <=? length (w ++ p))%nat with true by (rewrite app_length, L; reflexivity).
  change (4 * 0)%nat with 0%nat. cbn [skipn bind]. rewrite firstn_app, L, Nat.sub_diag, firstn_O, app_nil_r, firstn_all2 by lia.
  rewrite <- seq_shift, map_map. f_equal.
  erewrite map_ext; [reflexivity|]. intros k. rewrite !unp_def. replace (4 * Datatypes.S k)%nat with (length w + 4 * k)%nat by lia.
  rewrite app_length. replace (length w + 4 * k + 4 <=? length w + length p)%nat with (4 * k + 4 <=? length p)%nat
    by (destruct (Nat.leb_spec (4 * k + 4) (length p)), (Nat.leb_spec (length w + 4 * k + 4) (length w + length p)); lia).
  rewrite skipn_app. rewrite (skipn_all2 w) by lia. replace (length w + 4 * k - length w)%nat with (4 * k)%nat by lia. reflexivity.
Qed.
Section words.
Context (unp : nat -> list Z -> nat -> res Z) (pck : nat -> Z -> res (list Z)) (dec : list Z -> Z).
Context (unp_def : forall p o, unp 4%nat p o = if (o + 4 <=? length p)%nat then Ok (dec (firstn 4 (skipn o p))) else Err StructError).
Context (dec_ok : forall l, length l = 4%nat -> bytes_ok l -> word_ok (dec l) /\ pck 4%nat (dec l) = Ok l).

Lemma put_words_cons d l : put_words pck (d :: l) = (x <- pck 4%nat d ;; xs <- put_words pck l ;; Ok (x ++ xs)).
Proof.
  unfold put_words. cbn [map collect]. destruct (pck 4%nat d); cbn [bind]; [|reflexivity]. destruct (collect _); reflexivity.
Qed.
Lemma words_ok n : forall p, length p = (4 * n)%nat -> bytes_ok p ->
  exists ws, get_words unp p = Ok ws /\ length ws = n /\ Forall word_ok ws /\ put_words pck ws = Ok p.
Proof.
  induction n as [|n IH]; intros p L B.
  - destruct p; [|discriminate]. exists []. repeat split; constructor.
  - assert (E : p = firstn 4 p ++ skipn 4 p) by (symmetry; apply firstn_skipn).
    assert (L4 : length (firstn 4 p) = 4%nat) by (rewrite firstn_length; lia).
    assert (B4 : bytes_ok (firstn 4 p) /\ bytes_ok (skipn 4 p)) by (rewrite E in B; apply Forall_app in B; exact B).
    destruct (IH (skipn 4 p)) as (ws & G & Lw & F & P); [rewrite skipn_length; lia|apply B4|].
    destruct (dec_ok _ L4 (proj1 B4)) as [W K].
    exists (dec (firstn 4 p) :: ws). rewrite E at 1. rewrite (get_words_cons _ _ unp_def) by exact L4. rewrite G. cbn [bind].
    split; [reflexivity|]. split; [cbn; lia|]. split; [constructor; assumption|].
    rewrite put_words_cons, K, P. cbn [bind]. rewrite <- E. reflexivity.
Qed.
Lemma put_words_app a : forall b, put_words pck (a ++ b) = (x <- put_words pck a ;; y <- put_words pck b ;; Ok (x ++ y)).
Proof.
  induction a as [|d a IH]; intros b.
  - cbn [app]. unfold put_words at 2. cbn. destruct (put_words pck b); reflexivity.
  - cbn [app]. rewrite !put_words_cons, IH. destruct (pck 4%nat d); cbn [bind]; [|reflexivity].
    destruct (put_words pck a); cbn [bind]; [|reflexivity]. destruct (put_words pck b); cbn [bind]; [|reflexivity]. rewrite app_assoc. reflexivity.
Qed.
End words.
Lemma be_words n p : length p = (4 * n)%nat -> bytes_ok p ->
  exists ws, get_words struct_unpack_be p = Ok ws /\ length ws = n /\ Forall word_ok ws /\ put_words struct_pack_be ws = Ok p.
Proof.
  apply (words_ok _ _ from_be); [reflexivity|]. intros l L B. pose proof (from_be_bound l B) as Bd. unfold zlen in Bd. rewrite L in Bd.
  split; [exact Bd|]. rewrite struct_pack_be_ok by exact Bd. rewrite <- L at 1. rewrite be_bytes_from_be by exact B. reflexivity.
Qed.
Lemma le_words n p : length p = (4 * n)%nat -> bytes_ok p ->
  exists ws, get_words struct_unpack_le p = Ok ws /\ length ws = n /\ Forall word_ok ws /\ put_words struct_pack_le ws = Ok p.
Proof.
  apply (words_ok _ _ from_le); [reflexivity|]. intros l L B. pose proof (from_le_bound l B) as Bd. unfold zlen in Bd. rewrite L in Bd.
  split; [exact Bd|]. rewrite struct_pack_le_ok by exact Bd. rewrite <- L at 1. rewrite le_bytes_from_le by exact B. reflexivity.
Qed.
Lemma put_words_be_ok l : Forall word_ok l -> exists p, put_words struct_pack_be l = Ok p.
Proof.
  induction 1 as [|d l W _ [p IH]]; [exists []; reflexivity|]. rewrite put_words_cons, struct_pack_be_ok by exact W. rewrite IH. eexists. reflexivity.
Qed.

(** * Headers *)
Lemma header_bytes_ok k t : bytes_ok (header_bytes k t).
Proof. unfold header_bytes. apply Forall_app. split; [apply be_bytes_ok|]. destruct k; apply Forall_app; split; apply be_bytes_ok. Qed.
Lemma header_words ty k t ws : get_words struct_unpack_be (header_bytes k t) = Ok ws -> fits ty k t -> hd 0 ws = header_dw0 t.
Proof.
  unfold header_bytes. intros G _. rewrite (get_words_cons struct_unpack_be from_be) in G; [|reflexivity|apply be_bytes_length].
  destruct (get_words _ _); cbn [bind] in G; [|discriminate]. apply Ok_inj in G. subst ws. cbn [hd].
  apply from_be_be_bytes. apply header_dw0_bound.
Qed.
Lemma header_fields ty k t : fits ty k t ->
  field (header_dw0 t) 29 1 = (if (header_len k =? 16)%nat then 1 else 0) /\
  field (header_dw0 t) 30 1 = (if with_payload ty then 1 else 0) /\
  (with_payload ty = true -> length_of (field (header_dw0 t) 0 10) = tlen t).
Proof.
  intros F. pose proof (f_type _ _ _ F) as Fc. pose proof (type_code_bound ty) as B. rewrite Fc in B. cbn [fst snd] in B.
  pose proof (f_tc _ _ _ F). pose proof (f_attr _ _ _ F). pose proof (f_at _ _ _ F) as Fa. pose proof (f_kind _ _ _ F) as K.
  destruct (header_dw0_image t) as [Ilen _ _ _ _ _ _ _ _ _ Ifmt]; try lia.
  pose proof (f_equal fst Fc) as Ff. cbn [fst] in Ff.
  assert (A : forall n, 0 <= n < 3 -> field (header_dw0 t) (29 + n) 1 = Z.land (Z.shiftr (fmt t) n) 1).
  { intros n Hn. rewrite <- Ifmt. rewrite field_bits by lia. pose proof (header_dw0_bound t). assert (n = 0 \/ n = 1 \/ n = 2) as [->|[-> | ->]] by lia; change (Z.ones 1) with 1; [change (29 + 0) with 29|change (29 + 1) with 30|change (29 + 2) with 31]; bits. }
  pose proof (A 0 ltac:(lia)) as A0. pose proof (A 1 ltac:(lia)) as A1. change (29 + 0) with 29 in A0. change (29 + 1) with 30 in A1. rewrite A0, A1.
  split; [|split].
  - rewrite <- Ff. destruct ty; try discriminate K; injection K as <-; reflexivity.
  - rewrite <- Ff. destruct ty; try discriminate K; reflexivity.
  - intros W. pose proof (f_len _ _ _ F) as Fl. pose proof (len_image ty t Fl) as L.
    assert (Z0 : field (header_dw0 t) 0 10 = Z.land (header_dw0 t) 1023) by (rewrite field_bits by lia; change (Z.ones 10) with 1023; rewrite Z.shiftr_0_r; reflexivity).
    unfold length_of. rewrite Z0, Ilen.
    replace (length_reserved ty) with false in L by (destruct ty; try discriminate W; reflexivity). exact L.
Qed.

Lemma from_le_app a : forall b, from_le (a ++ b) = from_le a + 256 ^ zlen a * from_le b.
Proof.
  induction a as [|x a IH]; intros b; [cbn [app from_le]; change (zlen (@nil Z)) with 0; lia|].
  cbn [app from_le]. rewrite IH. unfold zlen. cbn [length]. rewrite Nat2Z.inj_succ, Z.pow_succ_r by lia. lia.
Qed.
Lemma from_be_app a b : from_be (a ++ b) = from_be a * 256 ^ zlen b + from_be b.
Proof. unfold from_be. rewrite rev_app_distr, from_le_app. unfold zlen. rewrite rev_length. lia. Qed.
(** the header as a number of 16 bytes: its first DWORD is on top *)
Lemma hdr_top d r lo w : length r = 12%nat -> bytes_ok r -> 0 <= d < 2 ^ 32 -> 0 <= lo -> 0 <= w ->
  field (from_be (be_bytes 4 d ++ r)) (96 + lo) w = field d lo w.
Proof.
  intros L B D Hl Hw. rewrite from_be_app, from_be_be_bytes by exact D. pose proof (from_be_bound r B) as Bd. unfold zlen in *. rewrite L in *.
  unfold field. f_equal. rewrite Z.pow_add_r by lia. rewrite <- Z.div_div by lia. f_equal.
  change (256 ^ Z.of_nat 12) with (2 ^ 96) in *. rewrite Z.add_comm, Z.div_add by lia. rewrite Z.div_small by lia. lia.
Qed.
Lemma parity16 h p : 0 <= h < 2 ^ 128 -> parity h = Ok p -> 0 <= p < 2 ^ 16.
Proof.
  intros H E. destruct (parity_ok h ltac:(lia)) as (q & E' & Hq & B). rewrite E in E'. apply Ok_inj in E'. subst q.
  assert (M : p = Z.land p (Z.ones 16)).
  { apply Z.bits_inj'. intros k Hk. rewrite Z.land_spec. destruct (Z_lt_le_dec k 16) as [L|L].
    - rewrite Z.ones_spec_low by lia. rewrite andb_true_r. reflexivity.
    - rewrite Z.ones_spec_high by lia. rewrite andb_false_r, B by lia. unfold byte_parity. cbn [map fold_right].
      assert (T : forall i, 128 <= i -> Z.testbit h i = false).
      { intros i Hi. destruct (Z.eq_dec h 0) as [->|]; [apply Z.bits_0|]. apply Z.bits_above_log2; [lia|].
assert (Z.log2 h < 128) by (apply Z.log2_lt_pow2; lia). lia. }
      rewrite !T by lia. reflexivity. }
  rewrite M, Z.land_ones by lia. apply Z.mod_pos_bound. lia.
Qed.
Lemma data_parity_range l : Forall (fun d => 0 <= d < 16) (data_parity l).
Proof.
  unfold data_parity. apply Forall_forall. intros x Hx. apply in_map_iff in Hx. destruct Hx as (d & <- & _).
  pose proof (proj1 (dword_parity_ok d)). bits.
Qed.

(** * TLPs that have the payload they announce *)
Lemma sd_data ty k t : sendable ty k t -> (if with_payload ty then data t else []) = data t.
Proof. intros [_ _ L]. destruct (with_payload ty); [reflexivity|]. destruct (data t); [reflexivity|]. unfold zlen in L. cbn in L. lia. Qed.
Lemma sd_words ty k t : sendable ty k t -> exists n, length (data t) = (4 * n)%nat /\ Z.of_nat n = if with_payload ty then tlen t else 0.
Proof.
  intros [F _ L]. pose proof (f_len _ _ _ F) as Fl. exists (Z.to_nat (if with_payload ty then tlen t else 0)). unfold zlen in L.
  destruct (with_payload ty) eqn:W; [|cbn; lia]. replace (length_reserved ty) with false in Fl by (destruct ty; try discriminate W; reflexivity).
  split; lia.
Qed.
Lemma sd_on_wire ty k t : sendable ty k t -> set_data (data t) (set_data [] (on_wire ty k t)) = on_wire ty k t.
Proof. intros S. pose proof (sd_data _ _ _ S) as D. transitivity (set_data (if with_payload ty then data t else []) (on_wire ty k t)); [rewrite D|]; reflexivity. Qed.

Lemma htile_frame ty k t : sendable ty k t -> exists f, frame_of_tlp HTile t = Ok f /\
  zlen (t_data f) = packet_dwords (hd 0 (t_data f)) /\ Forall word_ok (t_data f) /\ t_parity f = data_parity (t_data f) /\
  f = mkPt 0 0 (t_data f) 0 0 (t_parity f) 0 None 0 0 0 /\
  forall f', t_data f' = t_data f -> tlp_of_frame HTile f' = Ok (on_wire ty k t).
Proof.
  intros S. pose proof (sd_fits _ _ _ S) as F. pose proof (fits_fmt_type _ _ _ F) as Ft. pose proof (f_kind _ _ _ F) as Fk.
  unfold frame_of_tlp. rewrite (pack_header_bytes ty k t Ft Fk). cbn [bind].
  destruct (be_words (header_len k / 4) (header_bytes k t)) as (h & Gh & Lh & Wh & Ph); [rewrite header_bytes_length; destruct k; reflexivity|apply header_bytes_ok|].
  destruct (sd_words _ _ _ S) as (n & Ln & Zn).
  destruct (le_words n (data t) Ln (sd_bytes _ _ _ S)) as (d & Gd & Ld & Wd & Pd).
  rewrite Gh, Gd. cbn [bind]. eexists. split; [reflexivity|]. cbn [t_data t_parity].
  pose proof (header_words ty k t h Gh F) as Hh. destruct (header_fields ty k t F) as (F1 & F2 & F3).
  assert (Hl : length h = if (header_len k =? 16)%nat then 4%nat else 3%nat) by (rewrite Lh; destruct k; reflexivity).
  split; [|split; [|split; [|split]]]; try reflexivity.
  - assert (E : hd 0 (h ++ d) = header_dw0 t) by (rewrite <- Hh; destruct h; [destruct (header_len k =? 16)%nat; discriminate|reflexivity]).
    rewrite E. unfold packet_dwords. rewrite F1, F2. unfold zlen. rewrite app_length, Hl, Ld.
    destruct (with_payload ty); [rewrite F3 by reflexivity|]; destruct (header_len k =? 16)%nat; cbn [Z.eqb Pos.eqb]; lia.
  - apply Forall_app. split; assumption.
  - intros f' Hf'. unfold tlp_of_frame. rewrite Hf'.
    rewrite firstn_app, (firstn_all2 h) by (destruct (header_len k =? 16)%nat; lia).
    rewrite put_words_app, Ph. cbn [bind].
    destruct (put_words_be_ok (firstn (5 - length h) d)) as (x & X).
    { apply Forall_forall. intros y Hy. rewrite Forall_forall in Wd. apply Wd. rewrite <- (firstn_skipn (5 - length h) d). apply in_or_app. left. exact Hy. }
    rewrite X. cbn [bind]. rewrite (unpack_header_rest ty k t x F). cbn [bind].
    assert (Hs : Z.to_nat (get_header_size_dw (set_data [] (on_wire ty k t))) = length h).
    { pose proof (on_wire_header_size ty k t [] F) as Q. unfold get_header_size in Q. unfold get_header_size_dw.
      destruct (_ || _); rewrite Hl; destruct k; cbn in Q |- *; lia. }
    rewrite Hs, skipn_app, skipn_all, Nat.sub_diag. cbn [app skipn]. rewrite Pd. cbn [bind]. f_equal.
    exact (sd_on_wire _ _ _ S).
Qed.
Lemma ljust_length k t : length (ljust16 (header_bytes k t)) = 16%nat.
Proof. unfold ljust16. rewrite app_length, repeat_length, header_bytes_length. destruct k; reflexivity. Qed.
Lemma ljust_ok k t : bytes_ok (ljust16 (header_bytes k t)).
Proof.
  unfold ljust16. apply Forall_app. split; [apply header_bytes_ok|]. apply Forall_forall. intros x Hx. apply repeat_spec in Hx. subst x. unfold byte_ok. lia.
Qed.
Lemma ljust_top k t : exists r, ljust16 (header_bytes k t) = be_bytes 4 (header_dw0 t) ++ r /\ length r = 12%nat /\ bytes_ok r.
Proof.
  pose proof (ljust_length k t) as L. pose proof (ljust_ok k t) as B. unfold ljust16, header_bytes in *. rewrite <- app_assoc in *. eexists. split; [reflexivity|].
  apply Forall_app in B. split; [|apply B]. rewrite app_length, be_bytes_length in L. lia.
Qed.
Lemma ptile_frame ty k t : sendable ty k t -> exists f, frame_of_tlp PTile t = Ok f /\
  zlen (t_data f) = (if field (t_hdr f) 126 1 =? 1 then length_of (field (t_hdr f) 96 10) else 0) /\ Forall word_ok (t_data f) /\ t_parity f = data_parity (t_data f) /\
  0 <= t_hdr f < 2 ^ 128 /\ 0 <= t_hdr_par f < 2 ^ 16 /\ pt_check_parity f = Ok true /\
  f = mkPt 0 (t_hdr f) (t_data f) 0 (t_hdr_par f) (t_parity f) 0 None 0 0 0 /\
  forall f', t_data f' = t_data f -> t_hdr f' = t_hdr f -> tlp_of_frame PTile f' = Ok (on_wire ty k t).
Proof.
  intros S. pose proof (sd_fits _ _ _ S) as F. pose proof (fits_fmt_type _ _ _ F) as Ft. pose proof (f_kind _ _ _ F) as Fk.
  unfold frame_of_tlp. rewrite (pack_header_bytes ty k t Ft Fk). cbn [bind].
  destruct (sd_words _ _ _ S) as (n & Ln & Zn).
  destruct (le_words n (data t) Ln (sd_bytes _ _ _ S)) as (d & Gd & Ld & Wd & Pd).
  rewrite Gd. cbn [bind].
  set (h := from_be (ljust16 (header_bytes k t))).
  assert (Bh : 0 <= h < 2 ^ 128).
  { pose proof (from_be_bound _ (ljust_ok k t)) as B. unfold zlen in B. rewrite ljust_length in B. exact B. }
  destruct (parity_ok h ltac:(lia)) as (p & Ep & _). pose proof (parity16 h p Bh Ep) as Bp.
  unfold pt_update_parity. cbn [t_prfx t_hdr t_data t_prfx_par t_hdr_par t_parity t_func t_vf t_bar t_abort t_err]. rewrite Ep. cbn [bind].
  eexists. split; [reflexivity|]. cbn [t_prfx t_hdr t_data t_prfx_par t_hdr_par t_parity t_func t_vf t_bar t_abort t_err].
  split; [|split; [exact Wd|split; [reflexivity|split; [exact Bh|split; [exact Bp|split; [|split; [reflexivity|]]]]]]].
  - destruct (ljust_top k t) as (r & Er & Lr & Br). destruct (header_fields ty k t F) as (_ & F2 & F3). pose proof (header_dw0_bound t) as B0.
    subst h. rewrite Er. change 126 with (96 + 30). rewrite hdr_top by (assumption || lia). change 96 with (96 + 0). rewrite hdr_top by (assumption || lia).
    rewrite F2. unfold zlen. rewrite Ld, Zn. destruct (with_payload ty); [rewrite F3 by reflexivity|]; reflexivity.
  - unfold pt_check_parity. cbn [t_prfx t_hdr t_data t_prfx_par t_hdr_par t_parity]. replace (zlist_eqb _ _) with true by (symmetry; apply zlist_eqb_eq; reflexivity).
    rewrite Ep. cbn [bind]. rewrite !Z.eqb_refl. reflexivity.
  - intros f' Hd Hh. unfold tlp_of_frame. rewrite Hd, Hh. unfold to_bytes16. replace ((0 <=? h) && (h <? 2 ^ 128)) with true by lia. cbn [bind].
    assert (E : be_bytes 16 h = header_bytes k t ++ repeat 0 (16 - length (header_bytes k t))).
    { subst h. rewrite <- (ljust_length k t) at 1. rewrite be_bytes_from_be by apply ljust_ok. reflexivity. }
    rewrite E, (unpack_header_rest ty k t _ F). cbn [bind]. rewrite Pd. cbn [bind]. f_equal. exact (sd_on_wire _ _ _ S).
Qed.

Lemma tlp_frame c ty k t : sendable ty k t -> exists f, frame_of_tlp (dv c) t = Ok f /\ good_iframe c f /\
  tlp_of_frame (dv c) f = Ok (on_wire ty k t) /\ tlp_of_frame (dv c) (carried_iframe c f) = Ok (on_wire ty k t) /\
  t_parity f = data_parity (t_data f) /\ (dv c = PTile -> pt_check_parity f = Ok true) /\ carried_iframe c f = mkPt (t_prfx f) (t_hdr f) (t_data f)
     (if has c SPrfxPar then t_prfx_par f else 0) (if has c SHdrPar then t_hdr_par f else 0) (if has c SPar then t_parity f else map (fun _ => 0) (t_parity f)) 0 None 0 0 0.
Proof.
  intros S.
  assert (K : forall f, carried_iframe c f = mkPt (t_prfx f) (t_hdr f) (t_data f)
     (if has c SPrfxPar then t_prfx_par f else 0) (if has c SHdrPar then t_hdr_par f else 0) (if has c SPar then t_parity f else map (fun _ => 0) (t_parity f))
     (if has c SFunc then t_func f else 0) (if has c SVfa then match t_vf f with Some v => Some (if has c SVfn then v else 0) | None => None end else None)
     (if has c SBar then t_bar f else 0) 0 (if has c SErr then t_err f else 0)).
  { intros f. unfold carried_iframe. f_equal. destruct (has c SPar); [apply map_id|reflexivity]. }
  destruct (dv c) eqn:V.
  - destruct (htile_frame ty k t S) as (f & E & L & W & P & Ef & R). exists f.
    split; [exact E|]. split; [|split; [apply R; reflexivity|split; [apply R; reflexivity|split; [exact P|split; [discriminate|]]]]].
    + rewrite Ef. split; cbn [t_prfx t_hdr t_data t_prfx_par t_hdr_par t_parity t_func t_vf t_bar t_abort t_err]; rewrite ?V; try exact L; try exact W; try (intros _; lia); try exact (fun _ => Logic.I); auto.
      * rewrite P. apply map_length.
      * intros _. rewrite P. apply data_parity_range.
      * intros _. destruct (ig c =? 1), (ig c =? 2); lia.
    + rewrite K. rewrite Ef. cbn [t_prfx t_hdr t_data t_prfx_par t_hdr_par t_parity t_func t_vf t_bar t_abort t_err].
      destruct (has c SFunc), (has c SVfa), (has c SBar), (has c SErr); reflexivity.
  - destruct (ptile_frame ty k t S) as (f & E & L & W & P & Bh & Bp & C & Ef & R). exists f.
    split; [exact E|]. split; [|split; [apply R; reflexivity|split; [apply R; reflexivity|split; [exact P|split; [intros _; exact C|]]]]].
    + rewrite Ef. split; cbn [t_prfx t_hdr t_data t_prfx_par t_hdr_par t_parity t_func t_vf t_bar t_abort t_err]; rewrite ?V; try exact L; try exact W; try (intros _; lia); try exact (fun _ => Logic.I); auto.
      * rewrite P. apply map_length.
      * intros _. rewrite P. apply data_parity_range.
      * split; [exact Bh|]. split; [lia|]. split; intros _; [exact Bp|lia].
    + rewrite K. rewrite Ef. cbn [t_prfx t_hdr t_data t_prfx_par t_hdr_par t_parity t_func t_vf t_bar t_abort t_err].
      destruct (has c SFunc), (has c SVfa), (has c SBar), (has c SErr); reflexivity.
Qed.

(** * Sequences of TLPs over a stream *)
From Verif Require Import ModelAvst ProofsIntel.
Lemma tlp_arrived c t f : (exists ty k, sendable ty k t) -> frame_of_tlp (dv c) t = Ok f -> good_iframe c f /\ arrived c t (carried_iframe c f).
Proof.
  intros (ty & k & S) E. destruct (tlp_frame c ty k t S) as (f' & E' & G & _ & R & P & C & K). rewrite E in E'. apply Ok_inj in E'. subst f'.
  split; [exact G|]. split; [exists ty, k; split; assumption|]. rewrite K. cbn [t_parity t_data]. split.
  - intros ->. exact P.
  - intros V A1 A2 A3. rewrite A1, A2, A3. specialize (C V). revert C. unfold pt_check_parity. cbn [t_prfx t_hdr t_data t_prfx_par t_hdr_par t_parity]. exact (fun x => x).
Qed.
Lemma tlps_good c ts fs : Forall (fun t => exists ty k, sendable ty k t) ts -> map (frame_of_tlp (dv c)) ts = map Ok fs ->
  Forall (good_iframe c) fs /\ Forall2 (arrived c) ts (map (carried_iframe c) fs).
Proof.
  intros A. revert fs. induction A as [|t ts S _ IH]; intros [|f fs] E; try discriminate E; [split; constructor|].
  cbn [map] in E. assert (E1 : frame_of_tlp (dv c) t = Ok f) by congruence. assert (E2 : map (frame_of_tlp (dv c)) ts = map Ok fs) by congruence.
  destruct (tlp_arrived c t f S E1) as [G R]. destruct (IH fs E2) as [Gs Rs]. split; constructor; assumption.
Qed.
Lemma tlps_received c lat os ts : good_icfg c -> Forall (fun t => exists ty k, sendable ty k t) ts -> map (frame_of_tlp (dv c)) ts = map Ok (avst_sent os) ->
  match in_run c lat in_chan0 os with
  | None => True
  | Some r => exists s, r = Ok s /\ exists done rest, ts = done ++ rest /\ Forall2 (arrived c) done (v_recv s)
  end.
Proof.
  intros G A E. destruct (tlps_good c ts _ A E) as [Gs Rs]. pose proof (in_received c lat os G Gs) as R.
  destruct (in_run c lat in_chan0 os) as [r|]; [|exact Logic.I]. destruct R as (s & -> & done & rest & Es & Er). exists s. split; [reflexivity|].
  rewrite Es, map_app in Rs. apply Forall2_app_inv_r in Rs. destruct Rs as (t1 & t2 & R1 & _ & Et). exists t1, t2. split; [exact Et|]. rewrite Er. exact R1.
Qed.
Lemma tlps_delivered c lat os ts s : good_icfg c -> Forall (fun t => exists ty k, sendable ty k t) ts -> map (frame_of_tlp (dv c)) ts = map Ok (avst_sent os) ->
  in_run c lat in_chan0 os = Some (Ok s) ->
  exists os' s', Forall ProofsAvst.acalm os' /\ in_run c lat s os' = Some (Ok s') /\ Forall2 (arrived c) ts (v_recv s').
Proof.
  intros G A E R. destruct (tlps_good c ts _ A E) as [Gs Rs]. destruct (in_delivered c lat os s G Gs R) as (os' & s' & C & R' & Er).
  exists os', s'. split; [exact C|]. split; [exact R'|]. rewrite Er. exact Rs.
Qed.
