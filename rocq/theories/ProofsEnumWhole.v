(** The windows of a bridge consist of whole granules, whatever is written to its registers. *)
From Verif Require Import Base BaseProofs Bits ModelUtils ModelAttrs ModelConfig ModelAssign ModelTree ModelTreeCfg SpecBar SpecRoute SpecTree SpecAssign ProofsUtils ProofsBar ProofsHost ProofsConfigLow ProofsConfigTop ProofsScanHw ProofsEnumWr.

(** The lowest [lo] bits are all [c], there are [hi] bits. *)
Definition lowhigh (lo hi : Z) (c : bool) (v : Z) : Prop := 0 <= v /\ (forall i, 0 <= i < lo -> Z.testbit v i = c) /\ forall i, hi <= i -> Z.testbit v i = false.
Lemma lowhigh_value lo hi c v : 0 <= lo -> lo <= hi -> lowhigh lo hi c v -> exists x, 0 <= x < 2 ^ (hi - lo) /\ v = x * 2 ^ lo + (if c then 2 ^ lo - 1 else 0).
Proof.
  intros L H (P & A & B). exists (Z.shiftr v lo). split.
  - apply bits_range; [lia|]. intros i Hi. rewrite Z.shiftr_spec by lia. apply B. lia.
  - assert (E : v mod 2 ^ lo = if c then Z.ones lo else 0).
    { rewrite <- Z.land_ones by lia. apply Z.bits_inj'. intros i Hi. rewrite Z.land_spec. destruct (Z.lt_ge_cases i lo).
      - rewrite Z.ones_spec_low, andb_true_r, A by lia. destruct c; [rewrite Z.ones_spec_low by lia; reflexivity|rewrite Z.bits_0; reflexivity].
      - rewrite Z.ones_spec_high, andb_false_r by lia. destruct c; [rewrite Z.ones_spec_high by lia; reflexivity|rewrite Z.bits_0; reflexivity]. }
    rewrite Z.shiftr_div_pow2 by lia. pose proof (Z.div_mod v (2 ^ lo) ltac:(pose proof (Z.pow_pos_nonneg 2 lo); lia)) as D. rewrite E in D. rewrite D at 1. rewrite Z.ones_equiv. destruct c; lia.
Qed.
Lemma value_lowhigh lo hi (c : bool) v x : 0 <= lo -> lo <= hi -> 0 <= x < 2 ^ (hi - lo) -> v = x * 2 ^ lo + (if c then 2 ^ lo - 1 else 0) -> lowhigh lo hi c v.
Proof.
  intros L H X E. pose proof (Z.pow_pos_nonneg 2 lo ltac:(lia) L) as P2. assert (R : 0 <= v < 2 ^ hi).
  { replace hi with (hi - lo + lo) by lia. rewrite Z.pow_add_r by lia. destruct c; nia. }
  split; [lia|]. split.
  - intros i Hi. assert (M : v mod 2 ^ lo = if c then Z.ones lo else 0). { rewrite E, Z.add_comm, Z.mod_add by lia. rewrite Z.ones_equiv. apply Z.mod_small. destruct c; lia. }
    rewrite <- (Z.mod_pow2_bits_low v lo i) by lia. rewrite M. destruct c; [apply Z.ones_spec_low; lia|apply Z.bits_0].
  - intros i Hi. exact (testbit_high v hi i R Hi).
Qed.
Definition lo (k : kind) : Z := match k with Io => 12 | _ => 20 end.
Definition hi (k : kind) : Z := match k with Pref => 64 | _ => 32 end.
Lemma whole_bits f : whole f <-> forall k, lowhigh (lo k) (hi k) false (f_attr f (base_attr k)) /\ lowhigh (lo k) (hi k) true (f_attr f (limit_attr k)).
Proof.
  assert (T : forall k, top k / granule k = 2 ^ (hi k - lo k) /\ granule k = 2 ^ lo k /\ 0 <= lo k /\ lo k <= hi k) by (intros []; repeat split; discriminate).
  split; intros W k; destruct (T k) as (T1 & T2 & T3 & T4).
  - destruct (W k) as (x & y & X & Y & E). unfold windows in E. assert (E1 : f_attr f (base_attr k) = x * granule k) by congruence. assert (E2 : f_attr f (limit_attr k) = y * granule k + granule k - 1) by congruence. rewrite T1 in X, Y. rewrite T2 in E1, E2.
    split; [apply (value_lowhigh (lo k) (hi k) false _ x); auto; lia|apply (value_lowhigh (lo k) (hi k) true _ y); auto; lia].
  - destruct (W k) as [A B]. destruct (lowhigh_value _ _ _ _ T3 T4 A) as (x & X & E1). destruct (lowhigh_value _ _ _ _ T3 T4 B) as (y & Y & E2). exists x, y. rewrite T1, T2. split; [exact X|]. split; [exact Y|]. unfold windows. rewrite E1, E2. f_equal; lia.
Qed.
Lemma lowhigh_bmu l h c o m n bm : 0 <= m -> lowhigh l h c o -> (forall i, 0 <= i < l \/ h <= i -> Z.testbit m (i / 8) && Z.testbit bm i = false) -> (0 <= l <= h) -> lowhigh l h c (byte_mask_update o m n bm).
Proof.
  intros Hm (P & A & B) N L. assert (S : forall i, 0 <= i < l \/ h <= i -> Z.testbit (byte_mask_update o m n bm) i = Z.testbit o i).
  { intros i Hi. rewrite byte_mask_update_spec by lia. rewrite (N i Hi). reflexivity. }
  assert (B' : forall i, h <= i -> Z.testbit (byte_mask_update o m n bm) i = false) by (intros i Hi; rewrite S by lia; apply B; lia).
  split; [|split; [intros i Hi; rewrite S by lia; apply A; lia|exact B']]. apply (bits_range (byte_mask_update o m n bm) h); [lia|exact B'].
Qed.
Lemma lowhigh_lor l h o : 0 <= l <= h -> 0 <= o -> (forall i, h <= i -> Z.testbit o i = false) -> lowhigh l h true (Z.lor o (Z.ones l)).
Proof.
  intros L P B. split; [apply Z.lor_nonneg; split; [exact P|rewrite Z.ones_equiv; pose proof (Z.pow_pos_nonneg 2 l); lia]|]. split; intros i Hi; rewrite Z.lor_spec.
  - rewrite Z.ones_spec_low by lia. apply orb_true_r.
  - rewrite Z.ones_spec_high, orb_false_r by lia. apply B. lia.
Qed.
Lemma apart_by l h m bm c : 0 <= m < 2 ^ (h / 8) -> 0 <= l <= h -> h mod 8 = 0 -> bm = Z.shiftl c l \/ (forall j, 0 <= j < (l + 7) / 8 -> Z.testbit m j = false) -> forall i, 0 <= i < l \/ h <= i -> Z.testbit m (i / 8) && Z.testbit bm i = false.
Proof.
  intros M L H C i [Hi|Hi].
  - destruct C as [-> |C]; [rewrite Z.shiftl_spec_low by lia; apply andb_false_r|rewrite C by lia; reflexivity].
  - rewrite (testbit_high m (h / 8)) by lia. reflexivity.
Qed.
Lemma land_small m c w : 0 <= c < 2 ^ w -> 0 <= w -> 0 <= Z.land m c < 2 ^ w.
Proof. intros C W. apply bits_range; [exact W|]. intros j Hj. rewrite Z.land_spec, (testbit_high c w j C Hj). apply andb_false_r. Qed.
Lemma shift2 be : 0 <= Z.land be 3 < 4 -> 0 <= Z.shiftl (Z.land be 3) 2 < 16.
Proof. rewrite Z.shiftl_mul_pow2 by lia. lia. Qed.
Lemma shift4 be : 0 <= be < 16 -> 0 <= Z.shiftl be 4 < 256 /\ forall j, 0 <= j < 3 -> Z.testbit (Z.shiftl be 4) j = false.
Proof. intros B. split; [rewrite Z.shiftl_mul_pow2 by lia; lia|]. intros j Hj. apply Z.shiftl_spec_low. lia. Qed.
(** Any write to a bridge *)
Lemma whole_write reg x be g : 0 <= be < 16 -> whole g -> whole (br_write reg x be g).
Proof.
  intros Be W. apply whole_bits. rewrite whole_bits in W. intros k. specialize (W k) as Wk. destruct Wk as [A B].
  assert (FN : forall g, lowhigh (lo k) (hi k) false (f_attr g (base_attr k)) /\ lowhigh (lo k) (hi k) true (f_attr g (limit_attr k)) -> lowhigh (lo k) (hi k) false (f_attr (fn_write reg x be g) (base_attr k)) /\ lowhigh (lo k) (hi k) true (f_attr (fn_write reg x be g) (limit_attr k))).
  { clear. intros g H. replace (f_attr (fn_write reg x be g) (base_attr k)) with (f_attr g (base_attr k)); [replace (f_attr (fn_write reg x be g) (limit_attr k)) with (f_attr g (limit_attr k)); [exact H|]|];
      unfold fn_write; repeat match goal with |- _ = f_attr (if ?b then _ else _) _ => destruct b; [unfold with_attr; cbn [f_attr]; unfold when; repeat match goal with |- context [if bit ?x ?y then _ else _] => destruct (bit x y) end; destruct k; reflexivity|] end; destruct k; reflexivity. }
  assert (Be3 : 0 <= Z.land be 3 < 4) by (apply (land_small be 3 2); lia). assert (Be12 : 0 <= Z.land be 12 < 16) by (apply (land_small be 12 4); lia).
  assert (L12 : forall j, 0 <= j < 2 -> Z.testbit (Z.land be 12) j = false) by (intros j Hj; rewrite Z.land_spec; assert (j = 0 \/ j = 1) as [-> | ->] by lia; apply andb_false_r).
  assert (U : forall o m n bm c d, lowhigh (lo k) (hi k) d o -> 0 <= m < 2 ^ (hi k / 8) -> bm = Z.shiftl c (lo k) \/ (forall j, 0 <= j < (lo k + 7) / 8 -> Z.testbit m j = false) -> lowhigh (lo k) (hi k) d (byte_mask_update o m n bm)).
  { intros o m n bm c d H M C. apply lowhigh_bmu; [lia|exact H| |destruct k; cbn; lia]. apply (apart_by _ _ _ _ c M); [destruct k; cbn; lia|destruct k; reflexivity|exact C]. }
  assert (V : forall o m n bm c, lowhigh (lo k) (hi k) true o -> 0 <= m < 2 ^ (hi k / 8) -> bm = Z.shiftl c (lo k) \/ (forall j, 0 <= j < (lo k + 7) / 8 -> Z.testbit m j = false) -> lowhigh (lo k) (hi k) true (Z.lor (byte_mask_update o m n bm) (Z.ones (lo k)))).
  { intros o m n bm c H M C. destruct (U o m n bm c true H M C) as (P & _ & Q). apply lowhigh_lor; [destruct k; cbn; lia|exact P|exact Q]. }
  rewrite br_write_eq. unfold br_write_alt.
  repeat match goal with |- context [if reg =? ?c then with_attr _ _ else _] => destruct (reg =? c) end; unfold with_attr; cbn [f_attr]; unfold when; repeat match goal with |- context [if bit ?x ?y then _ else _] => destruct (bit x y) end; try (exact (FN g (conj A B)));
    destruct k; cbn [base_attr limit_attr lo hi] in *; try (split; [exact A|exact B]).
  all: try change 4095 with (Z.ones 12); try change 1048575 with (Z.ones 20); try change 61440 with (Z.shiftl 15 12); try change 4293918720 with (Z.shiftl 4095 20).
  all: pose proof (shift2 be Be3) as S2; pose proof (shift4 be Be) as [S4 S4'].
  all: try change (2 ^ (32 / 8)) with 16 in U, V; try change (2 ^ (64 / 8)) with 256 in U, V; try change ((12 + 7) / 8) with 2 in U, V; try change ((20 + 7) / 8) with 3 in U, V.
  all: split; first [exact A | exact B
    | exact (V _ 2 _ _ 15 B ltac:(lia) (or_introl eq_refl)) | exact (U _ 2 _ _ 15 false A ltac:(lia) (or_introl eq_refl))
    | exact (V _ (Z.land be 12) _ _ 4095 B ltac:(lia) (or_introl eq_refl)) | exact (U _ (Z.shiftl (Z.land be 3) 2) _ _ 4095 false A ltac:(lia) (or_introl eq_refl))
    | exact (U _ (Z.shiftl (Z.land be 3) 2) _ _ 0 false A ltac:(lia) (or_intror (fun j Hj => Z.shiftl_spec_low (Z.land be 3) 2 j (proj2 Hj))))
    | exact (U _ (Z.land be 12) _ _ 0 true B ltac:(lia) (or_intror L12))
    | exact (U _ (Z.shiftl be 4) _ _ 0 false A ltac:(lia) (or_intror S4')) | exact (U _ (Z.shiftl be 4) _ _ 0 true B ltac:(lia) (or_intror S4'))].
Qed.
Lemma wrs_whole br dev P g g' : wrs br dev P g g' -> br = true -> whole g -> whole g'.
Proof.
  intros W E. induction W as [|g1 W IH|g1 reg x be W IH R B]; [auto|exact IH|]. intros H. rewrite E. cbn [cfg_wr]. apply whole_write; [exact B|]. exact (IH H).
Qed.
