(** Words built by [|=] from named fields. *)
From Verif Require Import Base BaseProofs.

Definition rd (x o w : Z) : Z := Z.land (Z.shiftr x o) (Z.ones w).
Lemma rd_lor x y o w : rd (Z.lor x y) o w = Z.lor (rd x o w) (rd y o w).
Proof. unfold rd. rewrite Z.shiftr_lor, Z.land_lor_distr_l. reflexivity. Qed.
Lemma rd_same v o w : 0 <= o -> 0 <= w -> 0 <= v < 2 ^ w -> rd (Z.shiftl v o) o w = v.
Proof.
  intros Ho Hw Hv. unfold rd. rewrite Z.shiftr_shiftl_l, Z.sub_diag, Z.shiftl_0_r by lia. rewrite Z.land_ones by lia. apply Z.mod_small. exact Hv.
Qed.
Lemma high_bits v w i : 0 <= w -> 0 <= v < 2 ^ w -> w <= i -> Z.testbit v i = false.
Proof. intros Hw Hv Hi. rewrite <- (Z.mod_small v (2 ^ w)) by exact Hv. apply Z.mod_pow2_bits_high. lia. Qed.
Lemma rd_disjoint v o w o' w' : 0 <= o -> 0 <= w -> 0 <= o' -> 0 <= w' -> 0 <= v < 2 ^ w -> o + w <= o' \/ o' + w' <= o -> rd (Z.shiftl v o) o' w' = 0.
Proof.
  intros Ho Hw Ho' Hw' Hv D. unfold rd. apply Z.bits_inj'. intros i Hi. rewrite Z.land_spec, Z.bits_0, Z.shiftr_spec, Z.shiftl_spec by lia.
  destruct (Z.lt_ge_cases i w') as [L|L].
  - destruct D as [D|D].
    + rewrite (high_bits v w) by (try exact Hv; lia). reflexivity.
    + rewrite Z.testbit_neg_r by lia. reflexivity.
  - rewrite Z.ones_spec_high by lia. apply andb_false_r.
Qed.
Lemma rd_0 o w : rd 0 o w = 0. Proof. unfold rd. rewrite Z.shiftr_0_l. reflexivity. Qed.
Lemma rd_bit x o : 0 <= o -> rd x o 1 = Z.b2z (Z.testbit x o).
Proof.
  intros H. unfold rd. change (Z.ones 1) with 1. apply Z.bits_inj'. intros i Hi. rewrite Z.land_spec, Z.shiftr_spec by lia.
  destruct (Z.eq_dec i 0) as [->|N].
  - rewrite Z.add_0_l. destruct (Z.testbit x o); reflexivity.
  - change 1 with (2 ^ 0). rewrite Z.pow2_bits_false by lia. rewrite andb_false_r. destruct (Z.testbit x o); [change (Z.b2z true) with (2 ^ 0); rewrite Z.pow2_bits_false by lia|rewrite Z.bits_0]; reflexivity.
Qed.
Lemma land_pow x o : 0 <= o -> zbool (Z.land x (Z.shiftl 1 o)) = Z.testbit x o.
Proof.
  intros H. rewrite Z.shiftl_1_l. unfold zbool. destruct (Z.testbit x o) eqn:E.
  - destruct (Z.eqb_spec (Z.land x (2 ^ o)) 0) as [Z0|]; [|reflexivity]. apply (f_equal (fun y => Z.testbit y o)) in Z0.
    rewrite Z.land_spec, E, Z.pow2_bits_true, Z.bits_0 in Z0 by lia. discriminate.
  - replace (Z.land x (2 ^ o)) with 0; [reflexivity|]. symmetry. apply Z.bits_inj'. intros i Hi. rewrite Z.land_spec, Z.bits_0.
    destruct (Z.eq_dec o i) as [->|N]; [rewrite E; reflexivity|]. rewrite Z.pow2_bits_false by lia. apply andb_false_r.
Qed.

Lemma lor_range a b w : 0 <= w -> 0 <= a < 2 ^ w -> 0 <= b < 2 ^ w -> 0 <= Z.lor a b < 2 ^ w.
Proof.
  intros W A B. assert (N : 0 <= Z.lor a b) by (apply Z.lor_nonneg; lia). split; [exact N|]. replace (Z.lor a b) with (Z.lor a b mod 2 ^ w); [apply Z.mod_pos_bound; lia|].
  apply Z.bits_inj'. intros i Hi. destruct (Z.lt_ge_cases i w); [apply Z.mod_pow2_bits_low; lia|]. rewrite Z.mod_pow2_bits_high by lia. rewrite Z.lor_spec, (high_bits a w), (high_bits b w) by (lia || assumption). reflexivity.
Qed.

Section Named.
  Context {N : Type} (neqb : N -> N -> bool) (neqb_ok : forall a b, neqb a b = true <-> a = b).
  Context (off wid : N -> Z) (valid : N -> Prop).
  Context (pos : forall n, valid n -> 0 <= off n /\ 0 <= wid n).
  Context (disj : forall m n, valid m -> valid n -> m <> n -> off m + wid m <= off n \/ off n + wid n <= off m).
  Definition ors (l : list (N * Z)) : Z := fold_right (fun p a => Z.lor (Z.shiftl (snd p) (off (fst p))) a) 0 l.
  Definition sum (n : N) (l : list (N * Z)) : Z := fold_right (fun p a => Z.lor (if neqb (fst p) n then snd p else 0) a) 0 l.
  Definition fits_names (l : list (N * Z)) : Prop := Forall (fun p => valid (fst p) /\ 0 <= snd p < 2 ^ wid (fst p)) l.
  Lemma ors_app a b : ors (a ++ b) = Z.lor (ors a) (ors b).
  Proof. unfold ors. induction a as [|p a IH]; cbn [app fold_right]; [rewrite Z.lor_0_l; reflexivity|]. rewrite IH, Z.lor_assoc. reflexivity. Qed.
  Lemma sum_app n a b : sum n (a ++ b) = Z.lor (sum n a) (sum n b).
  Proof. unfold sum. induction a as [|p a IH]; cbn [app fold_right]; [rewrite Z.lor_0_l; reflexivity|]. rewrite IH, Z.lor_assoc. reflexivity. Qed.
  Lemma sum_none n l : (forall p, In p l -> fst p <> n) -> sum n l = 0.
  Proof.
    intros H. unfold sum. induction l as [|p l IH]; cbn [fold_right]; [reflexivity|]. rewrite IH by (intros q Q; apply H; right; exact Q).
    destruct (neqb (fst p) n) eqn:E; [|reflexivity]. apply neqb_ok in E. exfalso. apply (H p); [left; reflexivity|exact E].
  Qed.
  Lemma rd_ors l n : fits_names l -> valid n -> rd (ors l) (off n) (wid n) = sum n l.
  Proof.
    intros F V. induction F as [|p l (Vp & Hp) F IH]; cbn [ors sum fold_right]; [apply rd_0|]. fold (ors l). fold (sum n l). rewrite rd_lor, IH. f_equal.
    destruct (pos _ V) as (P1 & P2). destruct (pos _ Vp) as (Q1 & Q2). destruct (neqb (fst p) n) eqn:E.
    - apply neqb_ok in E. rewrite E in *. apply rd_same; assumption.
    - apply rd_disjoint with (w := wid (fst p)); try assumption. apply disj; try assumption. intros K. apply neqb_ok in K. congruence.
  Qed.
  Lemma ors_range l w : 0 <= w -> fits_names l -> (forall n, valid n -> off n + wid n <= w) -> 0 <= ors l < 2 ^ w.
  Proof.
    intros W F H. induction F as [|p l (Vp & Hp) F IH]; cbn [ors fold_right]; [lia|]. fold (ors l). destruct (pos _ Vp) as (Q1 & Q2). specialize (H _ Vp).
    apply lor_range; try assumption. rewrite Z.shiftl_mul_pow2 by lia. split; [nia|]. apply Z.lt_le_trans with (2 ^ wid (fst p) * 2 ^ off (fst p)); [nia|]. rewrite <- Z.pow_add_r by lia. apply Z.pow_le_mono_r; lia.
  Qed.
End Named.
