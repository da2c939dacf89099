From Verif Require Import Base BaseProofs Bits ModelUtils SpecUtils.

Lemma zbool_false x : zbool x = false <-> x = 0.
Proof. unfold zbool. lia. Qed.

Lemma zbool_testbit v k : 0 <= k -> zbool (Z.land v (Z.shiftl 1 k)) = Z.testbit v k.
Proof.
  intros Hk. unfold zbool. rewrite Z.shiftl_1_l.
  destruct (Z.testbit v k) eqn:E.
  - apply negb_true_iff. apply Z.eqb_neq. intros C.
    assert (H : Z.testbit (Z.land v (2 ^ k)) k = true).
    { rewrite Z.land_spec, E, Z.pow2_bits_true by lia. reflexivity. }
    rewrite C, Z.bits_0 in H. discriminate.
  - apply negb_false_iff. apply Z.eqb_eq. apply Z.bits_inj'. intros i Hi.
    rewrite Z.land_spec, Z.bits_0.
    destruct (Z.eq_dec i k) as [->|N]; [rewrite E; reflexivity|].
    rewrite Z.pow2_bits_false by lia. apply andb_false_r.
Qed.

(** align *)
Lemma align_spec v k : 0 <= k -> least_multiple_above (2 ^ k) v (align v (2 ^ k - 1)).
Proof.
  intros Hk. unfold align. replace (2 ^ k - 1) with (Z.ones k) by (rewrite Z.ones_equiv; lia).
  rewrite Z.land_ones by lia.
  assert (P : 0 < 2 ^ k) by (apply Z.pow_pos_nonneg; lia).
  rewrite Z.ones_equiv. set (p := 2 ^ k) in *. unfold zbool.
  pose proof (Z.mod_pos_bound v p P) as B. pose proof (Z.div_mod v p ltac:(lia)) as D.
  destruct (Z.eqb_spec (v mod p) 0) as [E|N]; cbn [negb].
  - split; [apply Z.mod_divide; lia|]. split; [lia|]. intros; lia.
  - split; [exists (v / p + 1); nia|]. split; [lia|].
    intros m [q ->] Hm. assert (v / p < q) by nia. nia.
Qed.

Lemma align_id v k : 0 <= k -> (2 ^ k | v) -> align v (2 ^ k - 1) = v.
Proof.
  intros Hk D. destruct (align_spec v k Hk) as (_ & H1 & H2). specialize (H2 v D). lia.
Qed.

(** byte_mask_update *)
Lemma testbit_ff k i : 0 <= k -> 0 <= i ->
  Z.testbit (Z.shiftl 255 (8 * k)) i = (i / 8 =? k).
Proof.
  intros Hk Hi. rewrite Z.shiftl_spec by lia. change 255 with (Z.ones 8).
  rewrite Z.testbit_ones by lia.
  destruct (Z.eqb_spec (i / 8) k); lia.
Qed.

Lemma bmu_loop_spec fuel : forall k mask old new, 0 <= k -> 0 <= mask < 2 ^ (k + Z.of_nat fuel) ->
  forall i, 0 <= i ->
  Z.testbit (bmu_loop fuel mask (Z.shiftl 1 k) (Z.shiftl 255 (8 * k)) old new) i =
    if (k <=? i / 8) && Z.testbit mask (i / 8) then Z.testbit new i else Z.testbit old i.
Proof.
  induction fuel as [|f IH]; intros k mask old new Hk Hm i Hi; cbn [bmu_loop].
  - replace (k + Z.of_nat 0) with k in Hm by lia.
    destruct (k <=? i / 8) eqn:E; cbn; [|reflexivity].
    rewrite (testbit_high mask k) by lia. reflexivity.
  - destruct (Z.shiftl 1 k <=? mask) eqn:L.
    + rewrite Z.shiftl_shiftl by lia. rewrite Z.shiftl_shiftl by lia.
      replace (8 * k + 8) with (8 * (k + 1)) by lia.
      rewrite IH by (try replace (k + 1 + Z.of_nat f) with (k + Z.of_nat (S f)) by lia; lia).
      rewrite zbool_testbit by lia.
      destruct (Z.eq_dec (i / 8) k) as [E|N].
      * replace (k + 1 <=? i / 8) with false by lia. replace (k <=? i / 8) with true by lia. cbn [andb].
        rewrite E. destruct (Z.testbit mask k); [|reflexivity].
        rewrite Z.lor_spec, !Z.land_spec, Z.lnot_spec, testbit_ff by lia.
        rewrite E, Z.eqb_refl. cbn. rewrite andb_false_r, andb_true_r. reflexivity.
      * assert (O : Z.testbit (if Z.testbit mask k then Z.lor (Z.land old (Z.lnot (Z.shiftl 255 (8 * k))))
                    (Z.land new (Z.shiftl 255 (8 * k))) else old) i = Z.testbit old i).
        { destruct (Z.testbit mask k); [|reflexivity].
          rewrite Z.lor_spec, !Z.land_spec, Z.lnot_spec, testbit_ff by lia.
          destruct (Z.eqb_spec (i / 8) k); [lia|]. cbn. rewrite andb_false_r, andb_true_r, orb_false_r. reflexivity. }
        rewrite O. destruct (Z.leb_spec (k + 1) (i / 8)), (Z.leb_spec k (i / 8)); try lia; reflexivity.
    + apply Z.leb_gt in L. rewrite Z.shiftl_1_l in L.
      destruct (k <=? i / 8) eqn:E; cbn; [|reflexivity].
      rewrite (testbit_high mask k) by lia. reflexivity.
Qed.

Lemma log2_fuel mask : 0 <= mask -> mask < 2 ^ (0 + Z.of_nat (S (S (Z.to_nat (Z.log2 mask))))).
Proof.
  intros H. pose proof (Z.log2_nonneg mask).
  replace (0 + Z.of_nat (S (S (Z.to_nat (Z.log2 mask))))) with (Z.log2 mask + 2) by lia.
  destruct (Z.eq_dec mask 0) as [->|N]; [cbn; lia|].
  pose proof (Z.log2_spec mask ltac:(lia)) as [_ L].
  apply Z.lt_le_trans with (2 ^ Z.succ (Z.log2 mask)); [exact L|]. apply Z.pow_le_mono_r; lia.
Qed.

(** More fuel does not change the result: the loop has ended by its own condition. *)
Lemma bmu_loop_fuel mask old new n : 0 <= mask ->
  bmu_loop (S (S (Z.to_nat (Z.log2 mask))) + n) mask 1 255 old new =
  bmu_loop (S (S (Z.to_nat (Z.log2 mask)))) mask 1 255 old new.
Proof.
  intros Hm. apply Z.bits_inj'. intros i Hi.
  pose proof (log2_fuel mask Hm) as B.
  pose proof (bmu_loop_spec (S (S (Z.to_nat (Z.log2 mask))) + n) 0 mask old new ltac:(lia)) as H1.
  pose proof (bmu_loop_spec (S (S (Z.to_nat (Z.log2 mask)))) 0 mask old new ltac:(lia)) as H2.
  change (Z.shiftl 1 0) with 1 in *. change (Z.shiftl 255 (8 * 0)) with 255 in *.
  rewrite H1, H2; try lia; try reflexivity.
  split; [lia|]. eapply Z.lt_le_trans; [exact B|]. apply Z.pow_le_mono_r; lia.
Qed.

Lemma byte_mask_update_spec old mask new bm i : 0 <= mask -> 0 <= i ->
  Z.testbit (byte_mask_update old mask new bm) i =
    if Z.testbit mask (i / 8) && Z.testbit bm i then Z.testbit new i else Z.testbit old i.
Proof.
  intros Hm Hi. unfold byte_mask_update.
  pose proof (bmu_loop_spec (S (S (Z.to_nat (Z.log2 mask)))) 0 mask old
    (Z.lor (Z.land new bm) (Z.land old (Z.lnot bm))) ltac:(lia) (conj Hm (log2_fuel mask Hm)) i Hi) as H.
  change (Z.shiftl 1 0) with 1 in H. change (Z.shiftl 255 (8 * 0)) with 255 in H. rewrite H.
  replace (0 <=? i / 8) with true by lia. cbn [andb].
  rewrite Z.lor_spec, !Z.land_spec, Z.lnot_spec by lia.
  destruct (Z.testbit mask (i / 8)), (Z.testbit bm i), (Z.testbit new i), (Z.testbit old i); reflexivity.
Qed.

Lemma byte_at_testbit v i j : 0 <= i -> 0 <= j < 8 -> Z.testbit (byte_at v i) j = Z.testbit v (8 * i + j).
Proof.
  intros Hi Hj. unfold byte_at. replace (256 ^ i) with (2 ^ (8 * i)) by (rewrite Z.pow_mul_r by lia; reflexivity).
  change 256 with (2 ^ 8). rewrite Z.mod_pow2_bits_low by lia. rewrite Z.div_pow2_bits by lia. f_equal; lia.
Qed.

Lemma byte_at_bits v i j : 0 <= i -> 0 <= j -> Z.testbit (byte_at v i) j = (j <? 8) && Z.testbit v (8 * i + j).
Proof.
  intros Hi Hj. destruct (Z.ltb_spec j 8).
  - rewrite byte_at_testbit by lia. reflexivity.
  - unfold byte_at. change 256 with (2 ^ 8) at 2. rewrite Z.mod_pow2_bits_high by lia. reflexivity.
Qed.

Lemma byte_mask_update_bytes old mask new i : 0 <= mask -> 0 <= i ->
  byte_at (byte_mask_update old mask new (-1)) i = if Z.testbit mask i then byte_at new i else byte_at old i.
Proof.
  intros Hm Hi. apply Z.bits_inj'. intros j Hj.
  rewrite byte_at_bits by lia.
  destruct (Z.ltb_spec j 8) as [L|L]; cbn [andb].
  - rewrite byte_mask_update_spec by lia. replace ((8 * i + j) / 8) with i by lia.
    rewrite Z.bits_m1, andb_true_r by lia.
    destruct (Z.testbit mask i); rewrite byte_at_testbit by lia; reflexivity.
  - destruct (Z.testbit mask i); rewrite byte_at_bits by lia;
    replace (j <? 8) with false by lia; reflexivity.
Qed.

(** PcieId *)
Lemma id_int_from_int v : 0 <= v < 65536 -> id_int (id_from_int v) = v.
Proof. intros H. unfold id_int, id_from_int. cbn [bus device func]. bits. Qed.

Definition id_ok (i : pcie_id) : Prop := 0 <= bus i < 256 /\ 0 <= device i < 32 /\ 0 <= func i < 8.

Lemma id_from_int_ok v : id_ok (id_from_int v).
Proof. unfold id_ok, id_from_int. cbn [bus device func]. split; [|split]; bits. Qed.

Lemma id_from_int_int i : id_ok i -> id_from_int (id_int i) = i.
Proof.
  intros (H1 & H2 & H3). destruct i as [b d f]. unfold id_from_int, id_int. cbn [bus device func] in *.
  f_equal; bits.
Qed.
Lemma id_int_bound i : 0 <= id_int i < 65536.
Proof. unfold id_int. bits. Qed.

Lemma from_int_checked v : pcie_id_from_int v = Ok (id_from_int v).
Proof.
  unfold pcie_id_from_int, pcie_id_new. destruct (id_from_int_ok v) as (H1 & H2 & H3).
  unfold id_from_int in *. cbn [bus device func] in *.
  repeat match goal with |- context [if ?b then _ else _] => destruct b eqn:?; [lia|] end. reflexivity.
Qed.

Lemma pcie_id_new_ok b d f : 0 <= b < 256 -> 0 <= d < 32 -> 0 <= f < 8 -> pcie_id_new b d f = Ok (mkId b d f).
Proof.
  intros. unfold pcie_id_new.
  repeat match goal with |- context [if ?b then _ else _] => destruct b eqn:?; [lia|] end. reflexivity.
Qed.
Lemma pcie_id_new_spec b d f r : pcie_id_new b d f = r ->
  (0 <= b < 256 /\ 0 <= d < 32 /\ 0 <= f < 8 /\ r = Ok (mkId b d f)) \/
  (~ (0 <= b < 256 /\ 0 <= d < 32 /\ 0 <= f < 8) /\ r = Err ValueError).
Proof.
  unfold pcie_id_new. intros <-.
  repeat match goal with |- context [if ?b then _ else _] => destruct b eqn:? end;
  (left; repeat split; lia || reflexivity) || (right; split; [lia|reflexivity]).
Qed.

Lemma id_eqb_ok a b : id_eqb a b = true <-> a = b.
Proof.
  unfold id_eqb. destruct a as [a1 a2 a3], b as [b1 b2 b3]. cbn.
  split; intros H; [f_equal; lia|injection H as -> -> ->; lia].
Qed.

Lemma pcie_id_new_value b d f :
  pcie_id_new b d f =
    if (0 <=? b) && (b <=? 255) && (0 <=? d) && (d <=? 31) && (0 <=? f) && (f <=? 7)
    then Ok (mkId b d f) else Err ValueError.
Proof.
  unfold pcie_id_new.
  repeat match goal with |- context [if ?b then _ else _] => destruct b eqn:? end; reflexivity || lia.
Qed.
Lemma id_roundtrip_int v : 0 <= v < 65536 -> exists i, pcie_id_from_int v = Ok i /\ id_int i = v.
Proof.
  intros H. exists (id_from_int v). split; [apply from_int_checked|apply id_int_from_int; exact H].
Qed.

Lemma lor_disjoint_add a b k : 0 <= k -> 0 <= b < 2 ^ k -> Z.lor (Z.shiftl a k) b = a * 2 ^ k + b.
Proof.
  intros Hk Hb. rewrite <- Z.shiftl_mul_pow2 by lia.
  assert (E : Z.land (Z.shiftl a k) b = 0).
  { apply Z.bits_inj'. intros i Hi. rewrite Z.land_spec, Z.bits_0.
    destruct (Z.ltb_spec i k).
    - rewrite Z.shiftl_spec_low by lia. reflexivity.
    - rewrite (testbit_high b k) by lia. apply andb_false_r. }
  rewrite Z.add_nocarry_lxor, Z.lxor_lor by exact E. reflexivity.
Qed.
Lemma id_int_value i : id_ok i -> id_int i = 256 * bus i + 8 * device i + func i.
Proof.
  intros (H1 & H2 & H3). unfold id_int.
  assert (E1 : Z.land (bus i) 255 = bus i) by bits.
  assert (E2 : Z.land (device i) 31 = device i) by bits.
  assert (E3 : Z.land (func i) 7 = func i) by bits.
  rewrite E1, E2, E3, <- Z.lor_assoc.
  rewrite (lor_disjoint_add (device i) (func i) 3) by lia.
  rewrite (lor_disjoint_add (bus i) _ 8) by (cbn; lia). change (2 ^ 8) with 256. change (2 ^ 3) with 8. lia.
Qed.
Lemma id_roundtrip b d f i : pcie_id_new b d f = Ok i ->
  id_int i = 256 * b + 8 * d + f /\ pcie_id_from_int (id_int i) = Ok i.
Proof.
  intros H. destruct (pcie_id_new_spec b d f _ H) as [(H1 & H2 & H3 & E)|[_ E]]; [|discriminate].
  injection E as ->. rewrite from_int_checked.
  assert (O : id_ok (mkId b d f)) by (repeat split; cbn; lia).
  rewrite id_from_int_int by exact O. split; [|reflexivity]. rewrite id_int_value by exact O. reflexivity.
Qed.
