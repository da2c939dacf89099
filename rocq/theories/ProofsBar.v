(** Base address registers. *)
From Verif Require Import Base BaseProofs Bits ModelUtils ModelTlp ModelAttrs ModelCaps ModelCapList ModelConfig ModelFunction
  SpecRegs SpecConfig SpecBar ProofsUtils ProofsRegs ProofsCaps ProofsCapFn ProofsConfig ProofsConfigLow ProofsConfigTop.

(** ** Masks *)
Lemma mask_bits w n j : 0 <= n <= w -> 0 <= j -> Z.testbit (2 ^ w - 2 ^ n) j = (n <=? j) && (j <? w).
Proof.
  intros H Hj. replace (2 ^ w - 2 ^ n) with (Z.shiftl (Z.ones (w - n)) n).
  2:{ rewrite Z.shiftl_mul_pow2, Z.ones_equiv by lia. replace (2 ^ w) with (2 ^ (w - n) * 2 ^ n) by (rewrite <- Z.pow_add_r by lia; f_equal; lia). lia. }
  rewrite Z.shiftl_spec by lia. destruct (Z.leb_spec n j).
  - rewrite Z.testbit_ones_nonneg by lia. cbn [andb]. destruct (Z.ltb_spec (j - n) (w - n)), (Z.ltb_spec j w); try lia; reflexivity.
  - rewrite Z.testbit_neg_r by lia. reflexivity.
Qed.
Lemma bits_range v w : 0 <= w -> (forall j, w <= j -> Z.testbit v j = false) -> 0 <= v < 2 ^ w.
Proof.
  intros Hw H. replace v with (v mod 2 ^ w); [apply Z.mod_pos_bound; lia|]. apply Z.bits_inj'. intros j Hj.
  destruct (Z.ltb_spec j w); [apply Z.mod_pow2_bits_low; lia|]. rewrite Z.mod_pow2_bits_high by lia. symmetry. apply H. lia.
Qed.
Lemma mod_bits a b n : 0 <= n -> (forall j, 0 <= j < n -> Z.testbit a j = Z.testbit b j) -> a mod 2 ^ n = b mod 2 ^ n.
Proof.
  intros Hn H. apply Z.bits_inj'. intros j Hj. destruct (Z.ltb_spec j n).
  - rewrite !Z.mod_pow2_bits_low by lia. apply H. lia.
  - rewrite !Z.mod_pow2_bits_high by lia. reflexivity.
Qed.
Lemma div_bits a b n : 0 <= n -> (forall j, n <= j -> Z.testbit a j = Z.testbit b j) -> a / 2 ^ n = b / 2 ^ n.
Proof. intros Hn H. apply Z.bits_inj'. intros j Hj. rewrite !Z.div_pow2_bits by lia. apply H. lia. Qed.
(** A register of 32 bits whose upper bits can be written. *)
Lemma bmu_reg c be d a : 0 <= a <= 32 -> 0 <= c < 2 ^ 32 -> 0 <= be < 16 ->
  let v := byte_mask_update c be d (2 ^ 32 - 2 ^ a) in 0 <= v < 2 ^ 32 /\ v mod 2 ^ a = c mod 2 ^ a.
Proof.
  intros Ha Hc Hb v. split.
  - apply bits_range; [lia|]. intros j Hj. unfold v. rewrite byte_mask_update_spec by lia. rewrite mask_bits by lia.
    replace ((a <=? j) && (j <? 32)) with false by lia. rewrite andb_false_r. apply (testbit_high c 32); lia.
  - apply mod_bits; [lia|]. intros j Hj. unfold v. rewrite byte_mask_update_spec by lia. rewrite mask_bits by lia.
    replace ((a <=? j) && (j <? 32)) with false by lia. rewrite andb_false_r. reflexivity.
Qed.
Lemma be15 j : 0 <= j < 32 -> Z.testbit 15 (j / 8) = true.
Proof. intros H. assert (C : j / 8 = 0 \/ j / 8 = 1 \/ j / 8 = 2 \/ j / 8 = 3) by lia. destruct C as [-> | [-> | [-> | ->]]]; reflexivity. Qed.
Lemma bmu_all c d a : 0 <= a <= 32 -> 0 <= c < 2 ^ 32 ->
  byte_mask_update c 15 d (2 ^ 32 - 2 ^ a) = 2 ^ a * ((d mod 2 ^ 32) / 2 ^ a) + c mod 2 ^ a.
Proof.
  intros Ha Hc. destruct (bmu_reg c 15 d a Ha Hc ltac:(lia)) as [R M]. cbv zeta in *. set (v := byte_mask_update _ _ _ _) in *.
  rewrite (Z.div_mod v (2 ^ a)) by lia. rewrite M. f_equal. f_equal. rewrite <- (Z.mod_small v (2 ^ 32)) by lia.
  apply Z.bits_inj'. intros j Hj. rewrite !Z.div_pow2_bits by lia. destruct (Z.ltb_spec (j + a) 32).
  - rewrite !Z.mod_pow2_bits_low by lia. unfold v. rewrite byte_mask_update_spec by lia. rewrite mask_bits, be15 by lia.
    replace ((a <=? j + a) && (j + a <? 32)) with true by lia. reflexivity.
  - rewrite !Z.mod_pow2_bits_high by lia. reflexivity.
Qed.

(** ** Writes and reads of the registers *)
Lemma bar_index i : In i [0; 1; 2; 3; 4; 5] <-> 0 <= i < 6.
Proof. cbn. lia. Qed.
Ltac bars6 i H := let C := fresh in assert (C : In i [0; 1; 2; 3; 4; 5]) by (apply bar_index; exact H);
  repeat (destruct C as [<-|C]; [|]); [| | | | | |destruct C].
Lemma fn_bar_kept i reg d be f : 0 <= i < 6 -> f_attr (fn_write reg d be f) (fn_bar i) = f_attr f (fn_bar i).
Proof.
  intros H. unfold fn_write. destruct (reg =? 1); [|destruct (reg =? 3); [|destruct (reg =? 15)]].
  1-3: bars6 i H; cbn [with_attr f_attr]; keep_attr.
  destruct (_ && _); [reflexivity|]. destruct (_ && _); reflexivity.
Qed.
Lemma ep_bar_kept i reg d be f : 0 <= i < 6 -> f_attr (ep_write reg d be f) (fn_bar i) =
  if reg =? 4 + i then byte_mask_update (f_attr f (fn_bar i)) be d (f_attr f (fn_bar_mask i)) else f_attr f (fn_bar i).
Proof.
  intros H. unfold ep_write. bars6 i H; cbn [Z.add Pos.add Pos.succ];
  repeat match goal with |- context [if reg =? ?k then _ else _] => destruct (Z.eqb_spec reg k);
    [subst; cbn [Z.eqb Pos.eqb with_attr f_attr]; keep_attr|] end; apply fn_bar_kept; lia.
Qed.
Lemma br_bar_kept i reg d be f : 0 <= i < 2 -> f_attr (br_write reg d be f) (fn_bar i) =
  if reg =? 4 + i then byte_mask_update (f_attr f (fn_bar i)) be d (f_attr f (fn_bar_mask i)) else f_attr f (fn_bar i).
Proof.
  intros H. rewrite br_write_eq. unfold br_write_alt. assert (C : i = 0 \/ i = 1) by lia.
  destruct C as [-> | ->]; cbn [Z.add Pos.add Pos.succ];
  repeat match goal with |- context [if reg =? ?k then _ else _] => destruct (Z.eqb_spec reg k);
    [subst; cbn [Z.eqb Pos.eqb with_attr f_attr]; keep_attr|] end; apply fn_bar_kept; lia.
Qed.
Lemma kind_bars rd wr nb : In (rd, wr, nb) bar_kinds -> 2 <= nb <= 6 /\ forall i f, 0 <= i < nb ->
  (0 <= f_attr f (fn_bar i) < 2 ^ 32 -> rd f (4 + i) = Ok (Some (f_attr f (fn_bar i)))) /\
  forall reg d be,
    f_attr (wr reg d be f) (fn_bar_mask i) = f_attr f (fn_bar_mask i) /\
    f_attr (wr reg d be f) (fn_bar i) =
      if reg =? 4 + i then byte_mask_update (f_attr f (fn_bar i)) be d (f_attr f (fn_bar_mask i)) else f_attr f (fn_bar i).
Proof.
  intros [E | [E | []]]; injection E as <- <- <-; (split; [lia|]); intros i f H; (split; [|intros reg d be; split]).
  - intros R. replace (ep_read f (4 + i)) with (@Ok (option Z) (Some (Z.land (f_attr f (fn_bar i)) (Z.ones 32)))) by (bars6 i H; reflexivity).
    rewrite Z.land_ones, Z.mod_small by lia. reflexivity.
  - apply ep_masks. apply bar_index. lia.
  - apply ep_bar_kept. lia.
  - assert (C : i = 0 \/ i = 1) by lia. destruct C as [-> | ->]; intros; reflexivity.
  - apply br_masks. apply bar_index. lia.
  - apply br_bar_kept. lia.
Qed.

(** ** Arithmetic of windows *)
Lemma pow_split a b : 0 <= a <= b -> 2 ^ b = 2 ^ a * 2 ^ (b - a).
Proof. intros. rewrite <- Z.pow_add_r by lia. f_equal. lia. Qed.
Lemma type_small k n : size_ok k n -> 0 <= type_bits k < 2 ^ n.
Proof.
  unfold size_ok. destruct k as [|wide pf]; cbn [is_io type_bits].
  - intros H. assert (2 ^ 2 <= 2 ^ n) by (apply Z.pow_le_mono_r; lia). lia.
  - intros H. assert (2 ^ 4 <= 2 ^ n) by (apply Z.pow_le_mono_r; lia). destruct wide, pf; lia.
Qed.
Lemma content_mod k n base : size_ok k n -> base_ok k n base -> content k base mod 2 ^ n = type_bits k.
Proof.
  intros S B. pose proof (type_small _ _ S). destruct B as [_ B]. unfold content. rewrite <- Z.add_mod_idemp_l by lia. rewrite B.
  apply Z.mod_small. lia.
Qed.
Lemma content_range k n base : size_ok k n -> base_ok k n base -> 0 <= content k base < 2 ^ bwidth k.
Proof.
  intros S B. pose proof (type_small _ _ S). destruct B as [B1 B2]. unfold content. split; [lia|].
  assert (n <= bwidth k) by (unfold size_ok in S; lia). assert (0 <= n) by (unfold size_ok in S; destruct (is_io k); lia).
  rewrite (pow_split n (bwidth k)) in * by lia. set (q := 2 ^ (bwidth k - n)) in *. pose proof (Z.div_mod base (2 ^ n) ltac:(lia)) as E.
  rewrite B2 in E. assert (base / 2 ^ n < q) by nia. nia.
Qed.
(** The other way round: any value with the right low bits is a content. *)
Lemma content_of k n v : size_ok k n -> 0 <= v < 2 ^ bwidth k -> v mod 2 ^ n = type_bits k ->
  base_ok k n (v - v mod 2 ^ n) /\ content k (v - v mod 2 ^ n) = v.
Proof.
  intros S R M. pose proof (type_small _ _ S). assert (0 <= n) by (unfold size_ok in S; destruct (is_io k); lia).
  pose proof (Z.mod_pos_bound v (2 ^ n) ltac:(lia)). pose proof (Z.mod_le v (2 ^ n) ltac:(lia) ltac:(lia)).
  unfold content, base_ok. repeat split; try lia.
  rewrite Zminus_mod_idemp_r. replace (v - v) with 0 by lia. apply Z.mod_0_l. lia.
Qed.
Lemma mod_mod_pow v a b : 0 <= a <= b -> (v mod 2 ^ b) mod 2 ^ a = v mod 2 ^ a.
Proof. intros. apply mod_bits; [lia|]. intros j Hj. apply Z.mod_pow2_bits_low. lia. Qed.
(** The masks of the two halves of a wide BAR. *)
Lemma mask_lo n : 0 <= n <= 64 -> (2 ^ 64 - 2 ^ n) mod 2 ^ 32 = 2 ^ 32 - 2 ^ Z.min n 32.
Proof.
  intros H. apply Z.bits_inj'. intros j Hj. rewrite mask_bits by lia. destruct (Z.ltb_spec j 32).
  - rewrite Z.mod_pow2_bits_low, mask_bits by lia. lia.
  - rewrite Z.mod_pow2_bits_high by lia. lia.
Qed.
Lemma mask_hi n : 0 <= n <= 64 -> (2 ^ 64 - 2 ^ n) / 2 ^ 32 = 2 ^ 32 - 2 ^ Z.max (n - 32) 0.
Proof.
  intros H. apply Z.bits_inj'. intros j Hj. rewrite Z.div_pow2_bits, !mask_bits by lia. lia.
Qed.
(** Halves. *)
Lemma halves v : v = v mod 2 ^ 32 + 2 ^ 32 * (v / 2 ^ 32).
Proof. pose proof (Z.div_mod v (2 ^ 32) ltac:(lia)). lia. Qed.
Lemma halves_of a b : 0 <= a < 2 ^ 32 -> (a + 2 ^ 32 * b) mod 2 ^ 32 = a /\ (a + 2 ^ 32 * b) / 2 ^ 32 = b.
Proof.
  intros H. change (2 ^ 32) with 4294967296 in *. lia.
Qed.
Lemma testbit_halves a b j : 0 <= a < 2 ^ 32 -> 0 <= j ->
  Z.testbit (a + 2 ^ 32 * b) j = if j <? 32 then Z.testbit a j else Z.testbit b (j - 32).
Proof.
  intros H Hj. destruct (halves_of a b H) as [A B]. destruct (Z.ltb_spec j 32).
  - rewrite <- A at 2. symmetry. apply Z.mod_pow2_bits_low. lia.
  - rewrite <- B at 2. rewrite Z.div_pow2_bits by lia. f_equal. lia.
Qed.
Lemma mod_halves a b a' b' n : 0 <= n <= 64 -> 0 <= a < 2 ^ 32 -> 0 <= a' < 2 ^ 32 ->
  a mod 2 ^ Z.min n 32 = a' mod 2 ^ Z.min n 32 -> b mod 2 ^ Z.max (n - 32) 0 = b' mod 2 ^ Z.max (n - 32) 0 ->
  (a + 2 ^ 32 * b) mod 2 ^ n = (a' + 2 ^ 32 * b') mod 2 ^ n.
Proof.
  intros Hn Ha Ha' A B. apply mod_bits; [lia|]. intros j Hj. rewrite !testbit_halves by lia. destruct (Z.ltb_spec j 32).
  - rewrite <- (Z.mod_pow2_bits_low a (Z.min n 32)), <- (Z.mod_pow2_bits_low a' (Z.min n 32)) by (clear - H Hj; lia). congruence.
  - rewrite <- (Z.mod_pow2_bits_low b (Z.max (n - 32) 0)), <- (Z.mod_pow2_bits_low b' (Z.max (n - 32) 0)) by (clear - H Hj; lia). congruence.
Qed.

(** The registers of a BAR, one or two, separately. *)
Lemma bar_wide s i k n base : is_wide k = true -> bar_at s i k n base <->
  size_ok k n /\ base_ok k n base /\
  content k base = s (fn_bar i) + 2 ^ 32 * s (fn_bar (i + 1)) /\
  0 <= s (fn_bar i) < 2 ^ 32 /\ 0 <= s (fn_bar (i + 1)) < 2 ^ 32 /\
  s (fn_bar_mask i) = 2 ^ 32 - 2 ^ Z.min n 32 /\ s (fn_bar_mask (i + 1)) = 2 ^ 32 - 2 ^ Z.max (n - 32) 0.
Proof.
  intros W. unfold bar_at. rewrite W. split.
  - intros (S & B & A1 & A2 & A3 & A4). split; [exact S|]. split; [exact B|]. pose proof (content_range _ _ _ S B) as R.
    unfold size_ok, bwidth in S, R. rewrite W in S, R. assert (0 <= n <= 64) by (destruct (is_io k); lia).
    unfold size_mask, bwidth in A3, A4. rewrite W in A3, A4. rewrite mask_lo in A3 by lia. rewrite mask_hi in A4 by lia.
    rewrite A1, A2, A3, A4. split; [apply halves|]. split; [apply Z.mod_pos_bound; lia|]. split; [|split; reflexivity].
    change (2 ^ 64) with (2 ^ 32 * 2 ^ 32) in R. split; [apply Z.div_pos; lia|]. apply Z.div_lt_upper_bound; lia.
  - intros (S & B & C & R1 & R2 & A3 & A4). split; [exact S|]. split; [exact B|]. unfold size_ok, bwidth in S. rewrite W in S.
    assert (0 <= n <= 64) by (destruct (is_io k); lia). unfold size_mask, bwidth. rewrite W, mask_lo, mask_hi by lia.
    destruct (halves_of _ (s (fn_bar (i + 1))) R1) as [E1 E2]. rewrite C, E1, E2. repeat split; assumption.
Qed.
Lemma bar_narrow s i k n base : is_wide k = false -> bar_at s i k n base <->
  size_ok k n /\ base_ok k n base /\ content k base = s (fn_bar i) /\ 0 <= s (fn_bar i) < 2 ^ 32 /\
  s (fn_bar_mask i) = 2 ^ 32 - 2 ^ n.
Proof.
  intros W. unfold bar_at. rewrite W. split.
  - intros (S & B & A1 & A2). split; [exact S|]. split; [exact B|]. pose proof (content_range _ _ _ S B) as R.
    unfold size_mask, bwidth in A2, R. rewrite W in A2, R. rewrite A1. auto.
  - intros (S & B & C & R & M). unfold size_mask, bwidth. rewrite W. auto.
Qed.

(** ** Any write leaves a BAR what it is *)
Lemma size_n k n : size_ok k n -> 2 <= n < 64 /\ (is_wide k = false -> n < 32).
Proof. unfold size_ok, bwidth. destruct (is_io k), (is_wide k); split; try lia; intros; try discriminate; lia. Qed.
Lemma bar_stays rd wr nb f i k n base reg d be : In (rd, wr, nb) bar_kinds -> 0 <= i -> i + slots k <= nb -> 0 <= be < 16 ->
  bar_at (f_attr f) i k n base ->
  exists base', bar_at (f_attr (wr reg d be f)) i k n base' /\
    ((reg < 4 + i \/ 4 + i + slots k <= reg) -> base' = base).
Proof.
  intros W Hi Hs Hb B. destruct (kind_bars _ _ _ W) as [Hnb K]. unfold slots in *. destruct (is_wide k) eqn:Wd.
  - apply bar_wide in B; [|exact Wd]. destruct B as (S & B & C & R1 & R2 & M1 & M2). destruct (size_n _ _ S) as [Hn _].
    destruct (K i f ltac:(lia)) as [_ K1]. destruct (K1 reg d be) as [K1m K1v].
    destruct (K (i + 1) f ltac:(lia)) as [_ K2]. destruct (K2 reg d be) as [K2m K2v]. clear K K1 K2.
    destruct (bmu_reg _ be d (Z.min n 32) ltac:(lia) R1 Hb) as [U1 V1]. destruct (bmu_reg _ be d (Z.max (n - 32) 0) ltac:(lia) R2 Hb) as [U2 V2].
    cbv zeta in *. rewrite <- M1 in U1, V1. rewrite <- M2 in U2, V2.
    set (s' := f_attr (wr reg d be f)) in *. clearbody s'.
    assert (X1 : 0 <= s' (fn_bar i) < 2 ^ 32 /\ s' (fn_bar i) mod 2 ^ Z.min n 32 = f_attr f (fn_bar i) mod 2 ^ Z.min n 32)
      by (rewrite K1v; destruct (reg =? 4 + i); auto).
    assert (X2 : 0 <= s' (fn_bar (i + 1)) < 2 ^ 32 /\ s' (fn_bar (i + 1)) mod 2 ^ Z.max (n - 32) 0 = f_attr f (fn_bar (i + 1)) mod 2 ^ Z.max (n - 32) 0)
      by (rewrite K2v; destruct (reg =? 4 + (i + 1)); auto).
    destruct X1 as [X1 Y1], X2 as [X2 Y2].
    set (v := s' (fn_bar i) + 2 ^ 32 * s' (fn_bar (i + 1))).
    assert (T : v mod 2 ^ n = type_bits k).
    { rewrite <- (content_mod k n base S B), C. apply mod_halves; auto; lia. }
    assert (Rv : 0 <= v < 2 ^ bwidth k). { unfold bwidth. rewrite Wd. subst v. clear - X1 X2. change (2 ^ 64) with 18446744073709551616. change (2 ^ 32) with 4294967296 in *. lia. }
    destruct (content_of k n v S Rv T) as [Bo Co]. exists (v - v mod 2 ^ n). split.
    + apply bar_wide; [exact Wd|]. rewrite Co, K1m, K2m. unfold v. auto 8.
    + intros Ne. rewrite T. unfold v. rewrite K1v, K2v. replace (reg =? 4 + i) with false by (clear - Ne; lia). replace (reg =? 4 + (i + 1)) with false by (clear - Ne; lia).
      rewrite <- C. unfold content. apply Z.add_simpl_r.
  - apply bar_narrow in B; [|exact Wd]. destruct B as (S & B & C & R & M). destruct (size_n _ _ S) as [Hn Hn2]. specialize (Hn2 Wd).
    destruct (K i f ltac:(lia)) as [_ K1]. destruct (K1 reg d be) as [K1m K1v]. clear K K1.
    destruct (bmu_reg _ be d n ltac:(lia) R Hb) as [U V]. cbv zeta in *. rewrite <- M in U, V.
    set (s' := f_attr (wr reg d be f)) in *. clearbody s'.
    assert (X : 0 <= s' (fn_bar i) < 2 ^ 32 /\ s' (fn_bar i) mod 2 ^ n = f_attr f (fn_bar i) mod 2 ^ n)
      by (rewrite K1v; destruct (reg =? 4 + i); auto). destruct X as [X Y].
    assert (T : s' (fn_bar i) mod 2 ^ n = type_bits k) by (rewrite Y, <- C; apply content_mod; assumption).
    assert (Rv : 0 <= s' (fn_bar i) < 2 ^ bwidth k) by (unfold bwidth; rewrite Wd; exact X).
    destruct (content_of k n _ S Rv T) as [Bo Co]. eexists. split.
    + apply bar_narrow; [exact Wd|]. rewrite Co, K1m. auto 8.
    + intros Ne. rewrite T, K1v. replace (reg =? 4 + i) with false by (clear - Ne; lia). rewrite <- C. unfold content. apply Z.add_simpl_r.
Qed.

(** ** Writing all of a BAR *)
Lemma base_div k n base D : size_ok k n -> base_ok k n base -> content k base / 2 ^ n = D / 2 ^ n -> base = D - D mod 2 ^ n.
Proof.
  intros S B E. pose proof (content_mod _ _ _ S B) as M. destruct (size_n _ _ S) as [Hn _].
  pose proof (Z.div_mod (content k base) (2 ^ n) ltac:(lia)) as E1. pose proof (Z.div_mod D (2 ^ n) ltac:(lia)) as E2.
  rewrite E, M in E1. unfold content in E1. lia.
Qed.
Lemma bmu_bit c d a j : 0 <= a <= 32 -> a <= j < 32 -> Z.testbit (byte_mask_update c 15 d (2 ^ 32 - 2 ^ a)) j = Z.testbit d j.
Proof.
  intros Ha Hj. rewrite byte_mask_update_spec by lia. rewrite be15, mask_bits by lia.
  replace ((a <=? j) && (j <? 32)) with true by lia. reflexivity.
Qed.
Lemma bar_written rd wr nb f i k n base v : In (rd, wr, nb) bar_kinds -> 0 <= i -> i + slots k <= nb ->
  bar_at (f_attr f) i k n base -> 0 <= v < 2 ^ bwidth k ->
  bar_at (f_attr (bar_write wr i k v f)) i k n (v - v mod 2 ^ n).
Proof.
  intros W Hi Hs B Hv. destruct (kind_bars _ _ _ W) as [Hnb K]. unfold bar_write. destruct (is_wide k) eqn:Wd.
  - destruct (bar_stays _ _ _ f i k n base (4 + i) (v mod 2 ^ 32) 15 W Hi Hs ltac:(lia) B) as (b1 & B1 & _).
    destruct (bar_stays _ _ _ _ i k n b1 (5 + i) (v / 2 ^ 32) 15 W Hi Hs ltac:(lia) B1) as (b2 & B2 & _).
    assert (E : b2 = v - v mod 2 ^ n); [|rewrite <- E; exact B2].
    set (f1 := wr (4 + i) (v mod 2 ^ 32) 15 f) in *. unfold slots in Hs. rewrite Wd in Hs.
    apply bar_wide in B; [|exact Wd]. destruct B as (S & _ & _ & _ & _ & M1 & M2). destruct (size_n _ _ S) as [Hn _].
    apply bar_wide in B1; [|exact Wd]. destruct B1 as (_ & _ & _ & Q1 & Q2 & _ & M3).
    apply bar_wide in B2; [|exact Wd]. destruct B2 as (_ & Bo & C & R1 & R2 & _ & _).
    apply (base_div k); [exact S|exact Bo|]. rewrite C. unfold bwidth in Hv. rewrite Wd in Hv.
    destruct (K i f1 ltac:(lia)) as [_ K1]. destruct (K1 (5 + i) (v / 2 ^ 32) 15) as [_ K1v].
    destruct (K (i + 1) f1 ltac:(lia)) as [_ K2]. destruct (K2 (5 + i) (v / 2 ^ 32) 15) as [_ K2v].
    destruct (K i f ltac:(lia)) as [_ K3]. destruct (K3 (4 + i) (v mod 2 ^ 32) 15) as [_ K3v]. clear K K1 K2 K3. fold f1 in K3v.
    replace (5 + i =? 4 + i) with false in K1v by (clear; lia). replace (5 + i =? 4 + (i + 1)) with true in K2v by (clear; lia).
    rewrite Z.eqb_refl in K3v. rewrite M1 in K3v. rewrite M3 in K2v.
    apply div_bits; [clear - Hn; lia|]. intros j Hj. rewrite testbit_halves by (try exact R1; clear - Hn Hj; lia).
    rewrite K1v, K2v, K3v. destruct (Z.ltb_spec j 32).
    + rewrite bmu_bit by (clear - Hn Hj H; lia). apply Z.mod_pow2_bits_low. clear - H; lia.
    + destruct (Z.ltb_spec j 64).
      * rewrite bmu_bit by (clear - Hn Hj H H0; lia). rewrite Z.div_pow2_bits by (clear - H; lia). f_equal. clear; lia.
      * rewrite <- K2v. rewrite (testbit_high _ 32) by (try exact R2; clear - H0; lia). symmetry. apply (testbit_high v 64); [exact Hv|exact H0].
  - destruct (bar_stays _ _ _ f i k n base (4 + i) v 15 W Hi Hs ltac:(lia) B) as (b1 & B1 & _).
    assert (E : b1 = v - v mod 2 ^ n); [|rewrite <- E; exact B1]. unfold slots in Hs. rewrite Wd in Hs.
    apply bar_narrow in B; [|exact Wd]. destruct B as (S & _ & _ & _ & M1). destruct (size_n _ _ S) as [Hn Hn2]. specialize (Hn2 Wd).
    apply bar_narrow in B1; [|exact Wd]. destruct B1 as (_ & Bo & C & R1 & _).
    apply (base_div k); [exact S|exact Bo|]. rewrite C. unfold bwidth in Hv. rewrite Wd in Hv.
    destruct (K i f ltac:(lia)) as [_ K1]. destruct (K1 (4 + i) v 15) as [_ K1v]. rewrite Z.eqb_refl, M1 in K1v.
    apply div_bits; [clear - Hn; lia|]. intros j Hj. destruct (Z.ltb_spec j 32).
    + rewrite K1v. apply bmu_bit; lia.
    + rewrite (testbit_high _ 32) by (try exact R1; exact H). symmetry. apply (testbit_high v 32); [exact Hv|exact H].
Qed.
Lemma bar_reads rd wr nb f i k n base : In (rd, wr, nb) bar_kinds -> 0 <= i -> i + slots k <= nb ->
  bar_at (f_attr f) i k n base -> bar_read rd i k f = Ok (Some (content k base)).
Proof.
  intros W Hi Hs B. destruct (kind_bars _ _ _ W) as [Hnb K]. unfold bar_read, slots in *. destruct (is_wide k) eqn:Wd.
  - apply bar_wide in B; [|exact Wd]. destruct B as (_ & _ & C & R1 & R2 & _).
    destruct (K i f ltac:(lia)) as [K1 _]. destruct (K (i + 1) f ltac:(lia)) as [K2 _]. rewrite K1 by exact R1.
    replace (5 + i) with (4 + (i + 1)) by lia. rewrite K2 by exact R2. cbn [bind]. rewrite C. reflexivity.
  - apply bar_narrow in B; [|exact Wd]. destruct B as (_ & _ & C & R & _). destruct (K i f ltac:(lia)) as [K1 _].
    rewrite K1 by exact R. rewrite C. reflexivity.
Qed.
(** All ones give the size. *)
Lemma ones_base k n : size_ok k n -> (2 ^ bwidth k - 1) - (2 ^ bwidth k - 1) mod 2 ^ n = 2 ^ bwidth k - 2 ^ n.
Proof.
  intros S. destruct (size_n _ _ S) as [Hn _]. assert (n <= bwidth k) by (unfold size_ok in S; lia).
  assert (E : (2 ^ bwidth k - 1) mod 2 ^ n = 2 ^ n - 1); [|lia].
  rewrite (pow_split n (bwidth k)) by lia. symmetry. apply (Z.mod_unique_pos _ _ (2 ^ (bwidth k - n) - 1)); lia.
Qed.

(** ** Configuration *)
Lemma bit_length_up size : 1 <= size -> bit_length (size - 1) = Z.log2_up size.
Proof.
  intros H. unfold bit_length, Z.log2_up. destruct (Z.eqb_spec (size - 1) 0).
  - replace size with 1 by lia. reflexivity.
  - destruct (Z.compare_spec 1 size); try lia. rewrite Z.abs_eq by lia. unfold Z.succ. f_equal.
Qed.
Lemma size_bit b j : 0 <= b -> 0 <= j -> Z.testbit (Z.lnot (2 ^ b - 1)) j = (b <=? j).
Proof.
  intros. rewrite Z.lnot_spec by lia. replace (2 ^ b - 1) with (Z.ones b) by (rewrite Z.ones_equiv; lia).
  rewrite Z.testbit_ones_nonneg by lia. lia.
Qed.
Lemma size_low m b : 0 <= m <= 32 -> 0 <= b ->
  Z.land (2 ^ 32 - 2 ^ m) (Z.lnot (2 ^ b - 1)) = 2 ^ 32 - 2 ^ Z.min (Z.max m b) 32.
Proof.
  intros. apply Z.bits_inj'. intros j Hj. rewrite Z.land_spec, size_bit, !mask_bits by lia. lia.
Qed.
Lemma size_high m b : 0 <= m <= 32 -> 0 <= b < 64 ->
  Z.land (2 ^ 32 - 2 ^ 0) (Z.shiftr (Z.lnot (2 ^ b - 1)) 32) = 2 ^ 32 - 2 ^ Z.max (Z.max m b - 32) 0.
Proof.
  intros. apply Z.bits_inj'. intros j Hj. rewrite Z.land_spec, Z.shiftr_spec, size_bit, !mask_bits by lia. lia.
Qed.
Lemma bar_ne i j : 0 <= i -> 0 <= j -> i <> j -> fn_bar i <> fn_bar j.
Proof. unfold fn_bar. lia. Qed.
Lemma mask_ne i j : 0 <= i -> 0 <= j -> i <> j -> fn_bar_mask i <> fn_bar_mask j.
Proof. unfold fn_bar_mask. lia. Qed.
Lemma bar_mask_ne i j : 0 <= i < 6 -> 0 <= j < 6 -> fn_bar i <> fn_bar_mask j.
Proof. unfold fn_bar, fn_bar_mask. lia. Qed.
Lemma aset_eq k v s : aset k v s k = v.
Proof. unfold aset. rewrite Pos.eqb_refl. reflexivity. Qed.
Ltac asets := repeat first [rewrite aset_eq | rewrite aset_ne by (first [apply bar_ne; lia | apply mask_ne; lia | apply bar_mask_ne; lia | apply not_eq_sym, bar_mask_ne; lia])].
Lemma configured nb i size (ext pf io : bool) s : 0 <= nb <= 6 -> 0 <= i -> i + (if ext then 2 else 1) <= nb -> 1 <= size ->
  size_ok (kind_of ext pf io) (size_of (kind_of ext pf io) size) ->
  exists s', configure_bar nb i size ext pf io s = Ok s' /\
    bar_at s' i (kind_of ext pf io) (size_of (kind_of ext pf io) size) 0 /\
    forall a, (forall j, i <= j < i + slots (kind_of ext pf io) -> a <> fn_bar j /\ a <> fn_bar_mask j) -> s' a = s a.
Proof.
  intros Hnb Hi He Hs S. unfold configure_bar. replace ((nb <=? i) || (ext && (nb <=? i + 1))) with false by (destruct ext; lia).
  unfold py_index. replace ((0 <=? i) && (i <? nb)) with true by (destruct ext; lia). cbn [bind].
  pose proof (Z.log2_up_nonneg size). rewrite (bit_length_up size Hs). set (b := Z.log2_up size) in *. pose proof (size_n _ _ S) as [Hn Hn2].
  destruct io.
  - eexists. split; [reflexivity|]. unfold size_of in *; cbn [kind_of is_io] in *. fold b in S, Hn, Hn2 |- *. split.
    + apply bar_narrow; [reflexivity|]. split; [exact S|]. split; [split; [cbn; lia|reflexivity]|]. assert (i < 6) by (destruct ext; lia).
      asets. split; [reflexivity|]. split; [lia|]. change 0xfffffffc with (2 ^ 32 - 2 ^ 2). rewrite size_low by lia.
      specialize (Hn2 eq_refl). f_equal. f_equal. lia.
    + intros a Ha. destruct (Ha i ltac:(cbn; lia)). rewrite !aset_ne by assumption. reflexivity.
  - destruct ext; unfold size_of in *; cbn [kind_of is_io] in *; fold b in S, Hn, Hn2 |- *.
    + replace ((0 <=? i + 1) && (i + 1 <? nb)) with true by lia. cbn [bind]. eexists. split; [reflexivity|]. split.
      * apply bar_wide; [reflexivity|]. split; [exact S|]. split; [split; [cbn; lia|reflexivity]|].
        change 0xfffffff0 with (2 ^ 32 - 2 ^ 4). change 0xffffffff with (2 ^ 32 - 2 ^ 0). rewrite size_low, (size_high 4) by lia.
        destruct pf; asets; cbn [Z.lor]; (split; [reflexivity|]); repeat split; lia.
      * intros a Ha. destruct (Ha i ltac:(cbn; lia)). destruct (Ha (i + 1) ltac:(cbn; lia)). destruct pf; rewrite !aset_ne by assumption; reflexivity.
    + cbn [bind]. eexists. split; [reflexivity|]. split.
      * apply bar_narrow; [reflexivity|]. split; [exact S|]. split; [split; [cbn; lia|reflexivity]|].
        change 0xfffffff0 with (2 ^ 32 - 2 ^ 4). rewrite size_low by lia. specialize (Hn2 eq_refl).
        destruct pf; asets; cbn [Z.lor]; (split; [reflexivity|]); (split; [lia|]); f_equal; f_equal; lia.
      * intros a Ha. destruct (Ha i ltac:(cbn; lia)). destruct pf; rewrite !aset_ne by assumption; reflexivity.
Qed.

(** ** Decoding *)
Lemma mask_match addr v w n : 0 <= n <= w -> 0 <= addr < 2 ^ w -> 0 <= v < 2 ^ w ->
  (Z.land (Z.lxor addr v) (2 ^ w - 2 ^ n) =? 0) = (addr / 2 ^ n =? v / 2 ^ n).
Proof.
  intros Hn Ha Hv. destruct (Z.eqb_spec (addr / 2 ^ n) (v / 2 ^ n)) as [E|E].
  - apply Z.eqb_eq. apply Z.bits_inj'. intros j Hj. rewrite Z.land_spec, Z.lxor_spec, mask_bits, Z.bits_0 by lia.
    destruct (Z.leb_spec n j); [|apply andb_false_r]. replace (Z.testbit addr j) with (Z.testbit v j); [rewrite xorb_nilpotent; reflexivity|].
    replace j with (j - n + n) by lia. rewrite <- !Z.div_pow2_bits by lia. congruence.
  - apply Z.eqb_neq. intros F. apply E. apply div_bits; [lia|]. intros j Hj.
    destruct (Z.ltb_spec j w).
    + assert (X : Z.testbit (Z.land (Z.lxor addr v) (2 ^ w - 2 ^ n)) j = false) by (rewrite F; apply Z.bits_0).
      rewrite Z.land_spec, Z.lxor_spec, mask_bits in X by lia. replace ((n <=? j) && (j <? w)) with true in X by lia.
      rewrite andb_true_r in X. destruct (Z.testbit addr j), (Z.testbit v j); auto; discriminate X.
    + rewrite !(testbit_high _ w) by lia. reflexivity.
Qed.
Lemma mask_offset addr w n : 0 <= n <= w -> 0 <= addr < 2 ^ w -> Z.land addr (Z.lnot (2 ^ w - 2 ^ n)) = addr mod 2 ^ n.
Proof.
  intros Hn Ha. apply Z.bits_inj'. intros j Hj. rewrite Z.land_spec, Z.lnot_spec, mask_bits by lia.
  destruct (Z.ltb_spec j n).
  - rewrite Z.mod_pow2_bits_low by lia. replace ((n <=? j) && (j <? w)) with false by lia. apply andb_true_r.
  - rewrite Z.mod_pow2_bits_high by lia. destruct (Z.ltb_spec j w).
    + replace ((n <=? j) && (true)) with true by lia. apply andb_false_r.
    + rewrite (testbit_high addr w) by lia. reflexivity.
Qed.
(** The window containing an address. *)
Definition insideb (addr : Z) (w : Z * bkind * Z * Z) : bool := let '(_, _, n, base) := w in (base <=? addr) && (addr <? base + 2 ^ n).
Definition of_kindb (io : bool) (w : Z * bkind * Z * Z) : bool := let '(_, k, _, _) := w in Bool.eqb (is_io k) io.
Lemma window_match k n base addr : size_ok k n -> base_ok k n base -> 0 <= addr < 2 ^ bwidth k ->
  (Z.land (Z.lxor addr (content k base)) (size_mask k n) =? 0) = (base <=? addr) && (addr <? base + 2 ^ n) /\
  ((base <=? addr) && (addr <? base + 2 ^ n) = true -> Z.land addr (Z.lnot (size_mask k n)) = addr - base).
Proof.
  intros S B Ha. pose proof (content_range _ _ _ S B) as R. pose proof (content_mod _ _ _ S B) as M. pose proof (type_small _ _ S) as T.
  destruct (size_n _ _ S) as [Hn _]. assert (Hw : 0 <= n <= bwidth k) by (unfold size_ok in S; lia). unfold size_mask.
  rewrite mask_match, mask_offset by assumption. clear S R Hw. destruct B as [_ B]. set (p := 2 ^ n) in *. assert (0 < p) by lia. clearbody p.
  assert (Hc : content k base / p = base / p). { unfold content. rewrite (Z.div_mod base p) at 1 by lia. rewrite B.
    replace (p * (base / p) + 0 + type_bits k) with (type_bits k + (base / p) * p) by lia. rewrite Z.div_add by lia. rewrite Z.div_small by lia. lia. }
  rewrite Hc. pose proof (Z.div_mod base p ltac:(lia)). pose proof (Z.div_mod addr p ltac:(lia)). pose proof (Z.mod_pos_bound addr p ltac:(lia)).
  rewrite B in *. split.
  - destruct (Z.eqb_spec (addr / p) (base / p)) as [E|E].
    + rewrite E in *. lia.
    + destruct (Z.leb_spec base addr), (Z.ltb_spec addr (base + p)); try reflexivity. exfalso. apply E. assert (addr / p < base / p + 1) by nia. assert (base / p < addr / p + 1) by nia. lia.
  - intros I. assert (E : addr / p = base / p) by (assert (addr / p < base / p + 1) by nia; assert (base / p < addr / p + 1) by nia; lia).
    rewrite E in *. lia.
Qed.
Definition found (addr : Z) (io : bool) (i : Z) (l : list entry) : option (Z * Z) :=
  match find (fun w => of_kindb io w && insideb addr w) (windows i l) with
  | Some (i, _, _, base) => Some (i, addr - base)
  | None => None
  end.
Lemma content_low k n base : size_ok k n -> base_ok k n base ->
  zbool (Z.land (content k base) 1) = is_io k /\ (is_io k = false -> zbool (Z.land (content k base) 4) = is_wide k).
Proof.
  intros S B. pose proof (content_mod _ _ _ S B) as M. destruct (size_n _ _ S) as [Hn _].
  assert (Hb : forall j, 0 <= j < n -> Z.testbit (content k base) j = Z.testbit (type_bits k) j).
  { intros j Hj. rewrite <- M. symmetry. apply Z.mod_pow2_bits_low. lia. }
  split.
  - replace (Z.land (content k base) 1) with (Z.land (type_bits k) 1).
    + destruct k as [|[] []]; reflexivity.
    + apply Z.bits_inj'. intros j Hj. rewrite !Z.land_spec. destruct (Z.eqb_spec j 0) as [->|].
      * rewrite Hb by lia. reflexivity.
      * rewrite (testbit_high 1 1) by lia. rewrite !andb_false_r. reflexivity.
  - intros I. assert (4 <= n) by (unfold size_ok in S; rewrite I in S; lia).
    replace (Z.land (content k base) 4) with (Z.land (type_bits k) 4).
    + destruct k as [|[] []]; reflexivity.
    + apply Z.bits_inj'. intros j Hj. rewrite !Z.land_spec. destruct (Z.ltb_spec j 4) as [L|L].
      * rewrite Hb by lia. reflexivity.
      * rewrite (testbit_high 4 4) by lia. rewrite !andb_false_r. reflexivity.
Qed.
Lemma shiftl_halves a b : 0 <= a < 2 ^ 32 -> Z.lor a (Z.shiftl b 32) = a + 2 ^ 32 * b.
Proof.
  intros H. apply Z.bits_inj'. intros j Hj. rewrite Z.lor_spec, testbit_halves by lia. destruct (Z.ltb_spec j 32).
  - rewrite Z.shiftl_spec_low by lia. apply orb_false_r.
  - rewrite (testbit_high a 32), Z.shiftl_spec by lia. reflexivity.
Qed.
Lemma is_wide_io k : is_wide k = true -> is_io k = false.
Proof. destruct k; [discriminate|reflexivity]. Qed.
Lemma entry_pos e : 1 <= entry_slots e.
Proof. destruct e as [[[k n] b]|]; cbn [entry_slots]; [unfold slots; destruct (is_wide k)|]; lia. Qed.
Lemma slots_nonneg l : 0 <= total_slots l.
Proof. induction l as [|e l IH]; [reflexivity|]. pose proof (entry_pos e). change (0 <= entry_slots e + total_slots l). lia. Qed.
Lemma match_loop addr io s : 0 <= addr -> forall l fuel nb bar, laid_out s bar l -> bar + total_slots l = nb -> 0 <= bar ->
  nb - bar <= Z.of_nat fuel -> Forall small (windows bar l) -> Forall (reaches addr io) (windows bar l) ->
  match_bar_loop fuel nb bar addr io s = Ok (found addr io bar l).
Proof.
  intros Ha. induction l as [|e l IH]; intros fuel nb bar L T Hb Hf Fs Fr.
  - cbn in T. destruct fuel as [|fuel]; [reflexivity|]. cbn [match_bar_loop]. replace (nb <=? bar) with true by lia. reflexivity.
  - pose proof (slots_nonneg l) as P. pose proof (entry_pos e) as Q. change (bar + (entry_slots e + total_slots l) = nb) in T.
    destruct fuel as [|fuel]; [exfalso; lia|].
    cbn [match_bar_loop]. destruct e as [[[k n] base]|]; cbn [entry_slots laid_out windows] in *.
    + destruct L as [B L]. apply Forall_inv in Fs as Sm. apply Forall_inv_tail in Fs. apply Forall_inv in Fr as Re. apply Forall_inv_tail in Fr.
      cbn in Sm, Re. unfold found. cbn [windows find of_kindb insideb]. unfold slots in *. destruct (is_wide k) eqn:Wd.
      * pose proof (is_wide_io k Wd) as Io. pose proof B as B0. apply bar_wide in B; [|exact Wd]. destruct B as (S & Bo & C & R1 & R2 & M1 & M2).
        destruct (size_n _ _ S) as [Hn _]. replace (nb <=? bar) with false by lia. rewrite Z.min_l in M1 by lia.
        replace (s (fn_bar_mask bar) =? 0) with false by (symmetry; apply Z.eqb_neq; rewrite M1; assert (2 ^ n < 2 ^ 32) by (apply Z.pow_lt_mono_r; lia); lia).
        assert (Hlow : forall c, 0 <= c < 2 ^ 32 -> zbool (Z.land (s (fn_bar bar)) c) = zbool (Z.land (content k base) c)).
        { intros c Hc. f_equal. rewrite C. apply Z.bits_inj'. intros j Hj. rewrite !Z.land_spec, testbit_halves by assumption.
          destruct (Z.ltb_spec j 32); [reflexivity|]. rewrite (testbit_high c 32) by (try exact Hc; exact H). rewrite !andb_false_r. reflexivity. }
        destruct (content_low _ _ _ S Bo) as [C1 C2]. rewrite !Hlow, C1, Io, C2, Wd by (try exact Io; lia).
        replace (nb <=? bar + 1) with false by lia. rewrite shiftl_halves, <- C by exact R1.
        assert (Em : Z.lor (s (fn_bar_mask bar)) (Z.shiftl (s (fn_bar_mask (bar + 1))) 32) = size_mask k n).
        { unfold bar_at in B0. rewrite Wd in B0. destruct B0 as (_ & _ & _ & _ & E1 & E2). rewrite E1, E2, shiftl_halves by (apply Z.mod_pos_bound; lia).
          symmetry. apply halves. }
        rewrite Em. replace (Bool.eqb false io) with (negb io) by (destruct io; reflexivity).
        destruct io; cbn [negb andb].
        -- apply IH; auto; lia.
        -- rewrite Io in Re. destruct (window_match k n base addr S Bo (conj Ha (Re eq_refl))) as [-> W2].
           destruct ((base <=? addr) && (addr <? base + 2 ^ n)); [rewrite W2 by reflexivity; reflexivity|]. apply IH; auto; lia.
      * pose proof B as B0. apply bar_narrow in B; [|exact Wd]. destruct B as (S & Bo & C & R & M). destruct (size_n _ _ S) as [Hn Hn2].
        specialize (Hn2 Wd). replace (nb <=? bar) with false by lia.
        replace (s (fn_bar_mask bar) =? 0) with false by (symmetry; apply Z.eqb_neq; rewrite M; assert (2 ^ n < 2 ^ 32) by (apply Z.pow_lt_mono_r; lia); lia).
        destruct (content_low _ _ _ S Bo) as [C1 C2]. rewrite <- C, C1. replace (s (fn_bar_mask bar)) with (size_mask k n) by (unfold size_mask, bwidth; rewrite Wd; congruence).
        destruct (is_io k) eqn:Io.
        -- destruct io; cbn [andb Bool.eqb]; [|apply IH; auto; lia].
           destruct (window_match k n base addr S Bo (conj Ha (Re eq_refl))) as [-> W2].
           destruct ((base <=? addr) && (addr <? base + 2 ^ n)); [rewrite W2 by reflexivity; reflexivity|]. apply IH; auto; lia.
        -- rewrite C2, Wd by reflexivity. destruct io; cbn [andb negb Bool.eqb]; [apply IH; auto; lia|].
           destruct (window_match k n base addr S Bo (conj Ha (Re eq_refl))) as [-> W2].
           destruct ((base <=? addr) && (addr <? base + 2 ^ n)); [rewrite W2 by reflexivity; reflexivity|]. apply IH; auto; lia.
    + destruct L as (B & M & L). replace (nb <=? bar) with false by lia. rewrite M. cbn [Z.eqb]. apply IH; auto; lia.
Qed.
Lemma decode nb addr io s l : laid_out s 0 l -> total_slots l = nb -> 0 <= addr ->
  Forall small (windows 0 l) -> Forall (reaches addr io) (windows 0 l) ->
  match match_bar nb addr io s with
  | Ok (Some (i, off)) => exists k n base, In (i, k, n, base) (windows 0 l) /\ is_io k = io /\ base <= addr < base + 2 ^ n /\ off = addr - base
  | Ok None => forall w, In w (windows 0 l) -> of_kind io w -> ~ in_window addr w
  | Err _ => False
  end.
Proof.
  intros L T Ha Fs Fr. pose proof (slots_nonneg l). unfold match_bar. rewrite (match_loop addr io s Ha l (Z.to_nat nb) nb 0 L) by (assumption || lia).
  unfold found. destruct (find _ (windows 0 l)) as [[[[i k] n] base]|] eqn:E.
  - apply find_some in E. destruct E as [E1 E2]. cbn [of_kindb insideb] in E2. exists k, n, base. apply andb_true_iff in E2. destruct E2 as [E2 E3].
    apply eqb_prop in E2. repeat split; try assumption; lia.
  - intros [[[i k] n] base] Hw K I. pose proof (find_none _ _ E _ Hw) as X. cbn [of_kindb insideb of_kind in_window] in *. rewrite K, eqb_reflx in X. lia.
Qed.
Lemma decode_unique nb addr io s l i k n base : laid_out s 0 l -> total_slots l = nb -> 0 <= addr ->
  Forall small (windows 0 l) -> Forall (reaches addr io) (windows 0 l) -> windows_disjoint io l ->
  In (i, k, n, base) (windows 0 l) -> is_io k = io -> base <= addr < base + 2 ^ n -> match_bar nb addr io s = Ok (Some (i, addr - base)).
Proof.
  intros L T Ha Fs Fr D Hw K I. pose proof (decode nb addr io s l L T Ha Fs Fr) as X. destruct (match_bar nb addr io s) as [[[i' off]|]|].
  - destruct X as (k' & n' & base' & Hw' & K' & I' & ->).
    specialize (D _ _ addr Hw Hw' K K' I I'). injection D as <- <- <- <-. reflexivity.
  - exfalso. exact (X _ Hw K I).
  - destruct X.
Qed.
Lemma decode_tlp nb (f : fnc) t ty l : laid_out (f_attr f) 0 l -> total_slots l = nb -> 0 <= address t -> fmt_type t = Ok ty ->
  Forall small (windows 0 l) ->
  ((ty = IO_READ \/ ty = IO_WRITE) -> Forall (reaches (address t) true) (windows 0 l) ->
     exists b, match_tlp nb f t = Ok b /\ (b = true <-> exists w, In w (windows 0 l) /\ of_kind true w /\ in_window (address t) w)) /\
  ((ty = MEM_READ \/ ty = MEM_READ_64 \/ ty = MEM_WRITE \/ ty = MEM_WRITE_64) -> Forall (reaches (address t) false) (windows 0 l) ->
     exists b, match_tlp nb f t = Ok b /\ (b = true <-> exists w, In w (windows 0 l) /\ of_kind false w /\ in_window (address t) w)).
Proof.
  intros L T Ha Et Fs.
  assert (G : forall io, Forall (reaches (address t) io) (windows 0 l) ->
    exists b, (x <- match_bar nb (address t) io (f_attr f) ;; Ok match x with Some _ => true | None => false end) = Ok b /\
      (b = true <-> exists w, In w (windows 0 l) /\ of_kind io w /\ in_window (address t) w)).
  { intros io Fr. pose proof (decode nb (address t) io (f_attr f) l L T Ha Fs Fr) as X. destruct (match_bar nb (address t) io (f_attr f)) as [[[i off]|]|].
    - exists true. split; [reflexivity|]. split; [|reflexivity]. intros _. destruct X as (k & n & base & Hw & K & I & _). exists (i, k, n, base). auto.
    - exists false. split; [reflexivity|]. split; [discriminate|]. intros (w & Hw & K & I). exfalso. exact (X w Hw K I).
    - destruct X. }
  split; intros Hty Fr; unfold match_tlp; rewrite Et; cbn [bind]; specialize (G _ Fr).
  - destruct Hty as [-> | ->]; exact G.
  - destruct Hty as [-> | [-> | [-> | ->]]]; exact G.
Qed.
