(** A reflective decision procedure for equalities between bit-field expressions over [Z].
    It contains no model of the code; it is only proof automation.  An expression is compared
    bit by bit up to the computed width; each bit is a boolean formula over input bits, and two
    formulas are compared by case splitting on the input bits. *)
From Coq Require Import ZArith List Bool Lia.
Import ListNotations.
Local Open Scope Z_scope.

Inductive atom := AZ (n : nat) (i : Z) | AB (n : nat).

Inductive bf := FT | FF | FA (a : atom) | FNot (f : bf) | FAnd (f g : bf) | FOr (f g : bf) | FXor (f g : bf).

Inductive bx :=
| XVar (n : nat) | XCst (z : Z)
| XAnd (a b : bx) | XOr (a b : bx) | XXor (a b : bx) | XNot (a : bx)
| XShl (a : bx) (k : Z) | XShr (a : bx) (k : Z)
| XIf (c : bc) (a b : bx) | XB2Z (c : bc)
with bc :=
| CVar (n : nat) | CTrue | CFalse | CTest (a : bx) (i : Z)
| CNot (c : bc) | CAnd (c d : bc) | COr (c d : bc).

Section Sem.
Variable env : list Z.
Variable benv : list bool.
Variable ws : list (option Z).

Fixpoint ex (e : bx) : Z :=
  match e with
  | XVar n => nth n env 0
  | XCst z => z
  | XAnd a b => Z.land (ex a) (ex b)
  | XOr a b => Z.lor (ex a) (ex b)
  | XXor a b => Z.lxor (ex a) (ex b)
  | XNot a => Z.lnot (ex a)
  | XShl a k => Z.shiftl (ex a) k
  | XShr a k => Z.shiftr (ex a) k
  | XIf c a b => if ec c then ex a else ex b
  | XB2Z c => Z.b2z (ec c)
  end
with ec (c : bc) : bool :=
  match c with
  | CVar n => nth n benv false
  | CTrue => true
  | CFalse => false
  | CTest a i => Z.testbit (ex a) i
  | CNot c => negb (ec c)
  | CAnd c d => ec c && ec d
  | COr c d => ec c || ec d
  end.

Definition eatom (a : atom) : bool :=
  match a with AZ n i => Z.testbit (nth n env 0) i | AB n => nth n benv false end.
Fixpoint ef (f : bf) : bool :=
  match f with
  | FT => true | FF => false | FA a => eatom a
  | FNot f => negb (ef f) | FAnd f g => ef f && ef g | FOr f g => ef f || ef g
  | FXor f g => xorb (ef f) (ef g)
  end.

Definition fnot f := match f with FT => FF | FF => FT | FNot g => g | _ => FNot f end.
Definition fand f g := match f, g with FF, _ => FF | _, FF => FF | FT, _ => g | _, FT => f | _, _ => FAnd f g end.
Definition for_ f g := match f, g with FT, _ => FT | _, FT => FT | FF, _ => g | _, FF => f | _, _ => FOr f g end.
Definition fxor f g := match f, g with FF, _ => g | _, FF => f | FT, _ => fnot g | _, FT => fnot f | _, _ => FXor f g end.

Lemma fnot_ok f : ef (fnot f) = negb (ef f).
Proof. destruct f; cbn; try reflexivity. destruct (ef f); reflexivity. Qed.
Lemma fand_ok f g : ef (fand f g) = ef f && ef g.
Proof. destruct f, g; cbn; rewrite ?andb_true_r, ?andb_false_r; reflexivity. Qed.
Lemma for_ok f g : ef (for_ f g) = ef f || ef g.
Proof. destruct f, g; cbn; rewrite ?orb_true_r, ?orb_false_r; reflexivity. Qed.
Lemma fxor_ok f g : ef (fxor f g) = xorb (ef f) (ef g).
Proof.
  unfold fxor.
  destruct f, g; rewrite ?fnot_ok; cbn [ef]; rewrite ?xorb_false_r, ?xorb_false_l, ?xorb_true_r, ?xorb_true_l; reflexivity.
Qed.

(** Bit [i] of an expression ([i >= 0] is required for soundness). *)
Fixpoint bx_bit (e : bx) (i : Z) : bf :=
  match e with
  | XVar n => match nth n ws None with
              | Some w => if i <? w then FA (AZ n i) else FF
              | None => FA (AZ n i) end
  | XCst z => if Z.testbit z i then FT else FF
  | XAnd a (XCst z) => if Z.testbit z i then bx_bit a i else FF
  | XAnd a b => fand (bx_bit a i) (bx_bit b i)
  | XOr a b => for_ (bx_bit a i) (bx_bit b i)
  | XXor a b => fxor (bx_bit a i) (bx_bit b i)
  | XNot a => fnot (bx_bit a i)
  | XShl a k => if i <? k then FF else bx_bit a (i - k)
  | XShr a k => bx_bit a (i + k)
  | XIf c a b => let f := bc_bit c in for_ (fand f (bx_bit a i)) (fand (fnot f) (bx_bit b i))
  | XB2Z c => if i =? 0 then bc_bit c else FF
  end
with bc_bit (c : bc) : bf :=
  match c with
  | CVar n => FA (AB n)
  | CTrue => FT
  | CFalse => FF
  | CTest a i => bx_bit a i
  | CNot c => fnot (bc_bit c)
  | CAnd c d => fand (bc_bit c) (bc_bit d)
  | COr c d => for_ (bc_bit c) (bc_bit d)
  end.

(** Shift amounts and tested indices must be nonnegative. *)
Fixpoint bx_ok (e : bx) : bool :=
  match e with
  | XVar _ | XCst _ => true
  | XAnd a b | XOr a b | XXor a b => bx_ok a && bx_ok b
  | XNot a => bx_ok a
  | XShl a k | XShr a k => (0 <=? k) && bx_ok a
  | XIf c a b => bc_ok c && bx_ok a && bx_ok b
  | XB2Z c => bc_ok c
  end
with bc_ok (c : bc) : bool :=
  match c with
  | CVar _ | CTrue | CFalse => true
  | CTest a i => (0 <=? i) && bx_ok a
  | CNot c => bc_ok c
  | CAnd c d | COr c d => bc_ok c && bc_ok d
  end.

Definition wfenv : Prop :=
  forall n w, nth n ws None = Some w -> 0 <= w /\ 0 <= nth n env 0 < 2 ^ w.

Lemma testbit_high a w i : 0 <= a < 2 ^ w -> w <= i -> Z.testbit a i = false.
Proof.
  intros Ha Hi. destruct (Z.eq_dec a 0) as [->|Hn]; [apply Z.bits_0|].
  apply Z.bits_above_log2; [lia|].
  apply Z.log2_lt_pow2; [lia|]. apply Z.lt_le_trans with (2 ^ w); [lia|].
  apply Z.pow_le_mono_r; lia.
Qed.

Scheme bx_mut := Induction for bx Sort Prop with bc_mut := Induction for bc Sort Prop.
Combined Scheme bx_bc_mut from bx_mut, bc_mut.

Lemma bit_sound : wfenv ->
  (forall e, bx_ok e = true -> forall i, 0 <= i -> ef (bx_bit e i) = Z.testbit (ex e) i) /\
  (forall c, bc_ok c = true -> ef (bc_bit c) = ec c).
Proof.
  intros WF. apply bx_bc_mut.
  - intros n _ i Hi. cbn. destruct (nth n ws None) as [w|] eqn:E; [|reflexivity].
    destruct (i <? w) eqn:L; [reflexivity|]. cbn. symmetry.
    destruct (WF n w E) as [Hw Hb]. apply testbit_high with w; [exact Hb|lia].
  - intros z _ i Hi. cbn. destruct (Z.testbit z i); reflexivity.
  - intros a IHa b IHb H i Hi. cbn in H. apply andb_prop in H. destruct H as [Ha Hb].
    assert (G : ef (fand (bx_bit a i) (bx_bit b i)) = Z.testbit (ex (XAnd a b)) i).
    { rewrite fand_ok, IHa, IHb by assumption. cbn. rewrite Z.land_spec. reflexivity. }
    destruct b; try exact G.
    cbn. rewrite Z.land_spec. destruct (Z.testbit z i).
    + rewrite IHa by assumption. rewrite andb_true_r. reflexivity.
    + rewrite andb_false_r. reflexivity.
  - intros a IHa b IHb H i Hi. cbn in *. apply andb_prop in H. destruct H as [Ha Hb].
    rewrite for_ok, IHa, IHb, Z.lor_spec by assumption. reflexivity.
  - intros a IHa b IHb H i Hi. cbn in *. apply andb_prop in H. destruct H as [Ha Hb].
    rewrite fxor_ok, IHa, IHb, Z.lxor_spec by assumption. reflexivity.
  - intros a IHa H i Hi. cbn in *. rewrite fnot_ok, IHa, Z.lnot_spec by assumption. reflexivity.
  - intros a IHa k H i Hi. cbn in *. apply andb_prop in H. destruct H as [Hk Ha]. apply Z.leb_le in Hk.
    rewrite Z.shiftl_spec by exact Hi.
    destruct (i <? k) eqn:L.
    + apply Z.ltb_lt in L. cbn. rewrite Z.testbit_neg_r by lia. reflexivity.
    + apply Z.ltb_ge in L. apply IHa; [exact Ha|lia].
  - intros a IHa k H i Hi. cbn in *. apply andb_prop in H. destruct H as [Hk Ha]. apply Z.leb_le in Hk.
    rewrite Z.shiftr_spec by exact Hi. apply IHa; [exact Ha|lia].
  - intros c IHc a IHa b IHb H i Hi. cbn in *.
    apply andb_prop in H. destruct H as [H Hb]. apply andb_prop in H. destruct H as [Hc Ha].
    rewrite for_ok, !fand_ok, fnot_ok, IHc, IHa, IHb by assumption.
    destruct (ec c); cbn; rewrite ?orb_false_r; reflexivity.
  - intros c IHc H i Hi. cbn in *. destruct (Z.eqb_spec i 0) as [->|N].
    + rewrite IHc by assumption. destruct (ec c); reflexivity.
    + cbn. destruct (ec c); cbn [Z.b2z].
      * destruct i; try lia; reflexivity.
      * symmetry; apply Z.bits_0.
  - intros n _. reflexivity.
  - reflexivity.
  - reflexivity.
  - intros a IHa i H. cbn in *. apply andb_prop in H. destruct H as [Hi Ha]. apply IHa; [exact Ha|lia].
  - intros c IHc H. cbn in *. rewrite fnot_ok, IHc by exact H. reflexivity.
  - intros c IHc d IHd H. cbn in *. apply andb_prop in H. destruct H as [Hc Hd].
    rewrite fand_ok, IHc, IHd by assumption. reflexivity.
  - intros c IHc d IHd H. cbn in *. apply andb_prop in H. destruct H as [Hc Hd].
    rewrite for_ok, IHc, IHd by assumption. reflexivity.
Qed.

(** Widths. *)
Definition omax (a b : option Z) := match a, b with Some x, Some y => Some (Z.max x y) | _, _ => None end.
Definition omin (a b : option Z) := match a, b with Some x, Some y => Some (Z.min x y) | Some x, None | None, Some x => Some x | _, _ => None end.
Definition cwidth (z : Z) : option Z := if z <? 0 then None else Some (if z =? 0 then 0 else Z.log2 z + 1).

Fixpoint width (e : bx) : option Z :=
  match e with
  | XVar n => nth n ws None
  | XCst z => cwidth z
  | XAnd a b => omin (width a) (width b)
  | XOr a b | XXor a b => omax (width a) (width b)
  | XNot _ => None
  | XShl a k => option_map (fun w => w + k) (width a)
  | XShr a k => option_map (fun w => Z.max 0 (w - k)) (width a)
  | XIf _ a b => omax (width a) (width b)
  | XB2Z _ => Some 1
  end.

Lemma bound_by_bits a w : 0 <= w -> (forall i, w <= i -> Z.testbit a i = false) -> 0 <= a < 2 ^ w.
Proof.
  intros Hw H.
  assert (E : a = Z.land a (Z.ones w)).
  { apply Z.bits_inj'. intros i Hi. rewrite Z.land_spec, Z.testbit_ones by lia.
    destruct (Z.ltb_spec i w).
    - destruct (Z.leb_spec 0 i); [|lia]. cbn. rewrite andb_true_r. reflexivity.
    - rewrite H by lia. reflexivity. }
  rewrite E, Z.land_ones by lia. apply Z.mod_pos_bound. apply Z.pow_pos_nonneg; lia.
Qed.

Lemma width_sound : wfenv -> forall e w, bx_ok e = true -> width e = Some w -> 0 <= w /\ 0 <= ex e < 2 ^ w.
Proof.
  intros WF. induction e as [n|z|a IHa b IHb|a IHa b IHb|a IHa b IHb|a IHa|a IHa k|a IHa k|c a IHa b IHb|c];
    intros w Hok Hw; cbn in Hok, Hw; cbn [ex].
  - apply WF; exact Hw.
  - unfold cwidth in Hw. destruct (z <? 0) eqn:E; [discriminate|]. apply Z.ltb_ge in E.
    destruct (Z.eqb_spec z 0) as [->|N]; injection Hw as <-.
    + cbn. lia.
    + split; [pose proof (Z.log2_nonneg z); lia|].
      replace (Z.log2 z + 1) with (Z.succ (Z.log2 z)) by lia. pose proof (Z.log2_spec z). lia.
  - apply andb_prop in Hok. destruct Hok as [Oa Ob].
    destruct (width a) as [wa|], (width b) as [wb|]; cbn in Hw; try discriminate; injection Hw as <-.
    + destruct (IHa wa Oa eq_refl) as [Pa Ha], (IHb wb Ob eq_refl) as [Pb Hb].
      split; [lia|]. apply bound_by_bits; [lia|]. intros i Hi. rewrite Z.land_spec.
      destruct (Z.min_spec wa wb) as [[? Em]|[? Em]]; rewrite Em in Hi.
      * rewrite (testbit_high _ wa) by assumption. reflexivity.
      * rewrite (testbit_high (ex b) wb) by assumption. apply andb_false_r.
    + destruct (IHa wa Oa eq_refl) as [Pa Ha]. split; [exact Pa|]. apply bound_by_bits; [lia|].
      intros i Hi. rewrite Z.land_spec, (testbit_high _ wa) by assumption. reflexivity.
    + destruct (IHb wb Ob eq_refl) as [Pb Hb]. split; [exact Pb|]. apply bound_by_bits; [lia|].
      intros i Hi. rewrite Z.land_spec, (testbit_high (ex b) wb) by assumption. apply andb_false_r.
  - apply andb_prop in Hok. destruct Hok as [Oa Ob].
    destruct (width a) as [wa|], (width b) as [wb|]; cbn in Hw; try discriminate; injection Hw as <-.
    destruct (IHa wa Oa eq_refl) as [Pa Ha], (IHb wb Ob eq_refl) as [Pb Hb].
    split; [lia|]. apply bound_by_bits; [lia|]. intros i Hi.
    rewrite Z.lor_spec, (testbit_high _ wa), (testbit_high _ wb) by (assumption || lia). reflexivity.
  - apply andb_prop in Hok. destruct Hok as [Oa Ob].
    destruct (width a) as [wa|], (width b) as [wb|]; cbn in Hw; try discriminate; injection Hw as <-.
    destruct (IHa wa Oa eq_refl) as [Pa Ha], (IHb wb Ob eq_refl) as [Pb Hb].
    split; [lia|]. apply bound_by_bits; [lia|]. intros i Hi.
    rewrite Z.lxor_spec, (testbit_high _ wa), (testbit_high _ wb) by (assumption || lia). reflexivity.
  - discriminate.
  - apply andb_prop in Hok. destruct Hok as [Hk Oa]. apply Z.leb_le in Hk.
    destruct (width a) as [wa|]; cbn in Hw; [|discriminate]. injection Hw as <-.
    destruct (IHa wa Oa eq_refl) as [Pa Ha]. split; [lia|].
    rewrite Z.shiftl_mul_pow2, Z.pow_add_r by lia.
    assert (0 < 2 ^ k) by (apply Z.pow_pos_nonneg; lia). nia.
  - apply andb_prop in Hok. destruct Hok as [Hk Oa]. apply Z.leb_le in Hk.
    destruct (width a) as [wa|]; cbn in Hw; [|discriminate]. injection Hw as <-.
    destruct (IHa wa Oa eq_refl) as [Pa Ha]. split; [lia|].
    apply bound_by_bits; [lia|]. intros i Hi.
    rewrite Z.shiftr_spec, (testbit_high _ wa) by (assumption || lia). reflexivity.
  - apply andb_prop in Hok. destruct Hok as [Hok Ob]. apply andb_prop in Hok. destruct Hok as [Oc Oa].
    destruct (width a) as [wa|], (width b) as [wb|]; cbn in Hw; try discriminate; injection Hw as <-.
    destruct (IHa wa Oa eq_refl) as [Pa Ha], (IHb wb Ob eq_refl) as [Pb Hb].
    assert (2 ^ wa <= 2 ^ Z.max wa wb) by (apply Z.pow_le_mono_r; lia).
    assert (2 ^ wb <= 2 ^ Z.max wa wb) by (apply Z.pow_le_mono_r; lia).
    destruct (ec c); lia.
  - injection Hw as <-. destruct (ec c); cbn; lia.
Qed.

(** Deciding that a formula is false for all inputs. *)
Definition atom_eqb (a b : atom) : bool :=
  match a, b with
  | AZ n i, AZ m j => Nat.eqb n m && (i =? j)
  | AB n, AB m => Nat.eqb n m
  | _, _ => false
  end.
Lemma atom_eqb_ok a b : atom_eqb a b = true -> a = b.
Proof.
  destruct a, b; cbn; intros H; try discriminate.
  - apply andb_prop in H. destruct H as [H1 H2]. apply Nat.eqb_eq in H1. apply Z.eqb_eq in H2. congruence.
  - apply Nat.eqb_eq in H. congruence.
Qed.

Fixpoint subst (a : atom) (v : bool) (f : bf) : bf :=
  match f with
  | FT => FT | FF => FF
  | FA b => if atom_eqb a b then (if v then FT else FF) else f
  | FNot f => fnot (subst a v f)
  | FAnd f g => fand (subst a v f) (subst a v g)
  | FOr f g => for_ (subst a v f) (subst a v g)
  | FXor f g => fxor (subst a v f) (subst a v g)
  end.
Lemma subst_ok a f : ef (subst a (eatom a) f) = ef f.
Proof.
  induction f as [| |b|f IH|f IHf g IHg|f IHf g IHg|f IHf g IHg]; cbn [subst]; try reflexivity.
  - destruct (atom_eqb a b) eqn:E; [|reflexivity]. apply atom_eqb_ok in E. subst b.
    cbn. destruct (eatom a); reflexivity.
  - rewrite fnot_ok, IH. reflexivity.
  - rewrite fand_ok, IHf, IHg. reflexivity.
  - rewrite for_ok, IHf, IHg. reflexivity.
  - rewrite fxor_ok, IHf, IHg. reflexivity.
Qed.

Fixpoint pick (f : bf) : option atom :=
  match f with
  | FT | FF => None
  | FA a => Some a
  | FNot f => pick f
  | FAnd f g | FOr f g | FXor f g => match pick f with Some a => Some a | None => pick g end
  end.

Fixpoint is_false (fuel : nat) (f : bf) : bool :=
  match f with
  | FF => true
  | FT => false
  | _ => match fuel with
         | O => false
         | S k => match pick f with
                  | Some a => is_false k (subst a true f) && is_false k (subst a false f)
                  | None => false
                  end
         end
  end.
Lemma is_false_ok fuel f : is_false fuel f = true -> ef f = false.
Proof.
  revert f. induction fuel as [|k IH]; intros f H.
  - destruct f; cbn in H; try discriminate; reflexivity.
  - assert (G : match pick f with
                  | Some a => is_false k (subst a true f) && is_false k (subst a false f)
                  | None => false end = true -> ef f = false).
    { destruct (pick f) as [a|]; [|discriminate]. intros G. apply andb_prop in G. destruct G as [G1 G2].
      apply IH in G1. apply IH in G2. rewrite <- (subst_ok a f). destruct (eatom a); assumption. }
    destruct f; first [apply G; exact H | reflexivity | discriminate].
Qed.

Fixpoint bf_eqb (f g : bf) : bool :=
  match f, g with
  | FT, FT | FF, FF => true
  | FA a, FA b => atom_eqb a b
  | FNot f, FNot g => bf_eqb f g
  | FAnd f1 f2, FAnd g1 g2 | FOr f1 f2, FOr g1 g2 | FXor f1 f2, FXor g1 g2 => bf_eqb f1 g1 && bf_eqb f2 g2
  | _, _ => false
  end.
Lemma bf_eqb_ok f g : bf_eqb f g = true -> f = g.
Proof.
  revert g. induction f; destruct g; cbn; intros H; try discriminate; try reflexivity;
  try (apply atom_eqb_ok in H; congruence);
  try (apply andb_prop in H; destruct H as [H1 H2]; f_equal; auto);
  f_equal; auto.
Qed.

Definition feq (f g : bf) : bool := if bf_eqb f g then true else is_false 40 (fxor f g).
Lemma feq_ok f g : feq f g = true -> ef f = ef g.
Proof.
  unfold feq. destruct (bf_eqb f g) eqn:E; intros H.
  - apply bf_eqb_ok in E. congruence.
  - apply is_false_ok in H. rewrite fxor_ok in H. destruct (ef f), (ef g); cbn in H; congruence.
Qed.

Fixpoint allbits (n : nat) (i : Z) (e1 e2 : bx) : bool :=
  match n with
  | O => true
  | S m => if feq (bx_bit e1 i) (bx_bit e2 i) then allbits m (i + 1) e1 e2 else false
  end.
Lemma allbits_ok n i e1 e2 : allbits n i e1 e2 = true ->
  forall j, i <= j < i + Z.of_nat n -> feq (bx_bit e1 j) (bx_bit e2 j) = true.
Proof.
  revert i. induction n as [|n IH]; intros i H j Hj; [lia|].
  cbn in H. destruct (feq (bx_bit e1 i) (bx_bit e2 i)) eqn:E; [|discriminate].
  destruct (Z.eq_dec j i) as [->|N]; [exact E|]. apply (IH (i + 1)); [exact H|lia].
Qed.

Definition check_eq (e1 e2 : bx) : bool :=
  bx_ok e1 && bx_ok e2 &&
  match width e1, width e2 with
  | Some a, Some b => allbits (Z.to_nat (Z.max a b)) 0 e1 e2
  | _, _ => false
  end.

Theorem check_eq_sound e1 e2 : wfenv -> check_eq e1 e2 = true -> ex e1 = ex e2.
Proof.
  intros WF H. unfold check_eq in H. apply andb_prop in H. destruct H as [H1 H].
  apply andb_prop in H1. destruct H1 as [O1 O2].
  destruct (width e1) as [a|] eqn:W1; [|discriminate]. destruct (width e2) as [b|] eqn:W2; [|discriminate].
  destruct (width_sound WF e1 a O1 W1) as [Pa Ha]. destruct (width_sound WF e2 b O2 W2) as [Pb Hb].
  apply Z.bits_inj'. intros i Hi.
  destruct (Z.ltb_spec i (Z.max a b)) as [L|L].
  - destruct (bit_sound WF) as [S _]. rewrite <- !S by assumption.
    apply feq_ok. apply (allbits_ok _ _ _ _ H). lia.
  - rewrite (testbit_high _ a), (testbit_high _ b) by (assumption || lia). reflexivity.
Qed.

Definition check_beq (c1 c2 : bc) : bool := bc_ok c1 && bc_ok c2 && feq (bc_bit c1) (bc_bit c2).
Theorem check_beq_sound c1 c2 : wfenv -> check_beq c1 c2 = true -> ec c1 = ec c2.
Proof.
  intros WF H. unfold check_beq in H. apply andb_prop in H. destruct H as [H1 H].
  apply andb_prop in H1. destruct H1 as [O1 O2]. destruct (bit_sound WF) as [_ S].
  rewrite <- !S by assumption. apply feq_ok. exact H.
Qed.

Definition check_bound (e : bx) (w : Z) : bool :=
  bx_ok e && match width e with Some a => a <=? w | None => false end.
Theorem check_bound_sound e w : wfenv -> check_bound e w = true -> 0 <= ex e < 2 ^ w.
Proof.
  intros WF H. unfold check_bound in H. apply andb_prop in H. destruct H as [O H].
  destruct (width e) as [a|] eqn:W; [|discriminate]. apply Z.leb_le in H.
  destruct (width_sound WF e a O W) as [Pa Ha].
  assert (2 ^ a <= 2 ^ w) by (apply Z.pow_le_mono_r; lia). lia.
Qed.
End Sem.

(** Reification. Numerals are constants, [Z.land], [Z.lor], [Z.lxor], [Z.lnot], shifts by numerals,
    conditionals and [Z.b2z] are interpreted, everything else is a variable.  The width of a
    variable is read off a hypothesis [0 <= x < B] with numeral [B]. *)
Ltac is_zcst t :=
  lazymatch t with
  | Z0 => constr:(true)
  | Z.ones ?k => is_zcst k
  | Z.pow ?a ?b => let c := is_zcst a in lazymatch c with true => is_zcst b | false => constr:(false) end
  | Zpos ?p => is_pcst p
  | Zneg ?p => is_pcst p
  | _ => constr:(false)
  end
with is_pcst p :=
  lazymatch p with
  | xH => constr:(true)
  | xO ?q => is_pcst q
  | xI ?q => is_pcst q
  | _ => constr:(false)
  end.

Ltac zlookup x l :=
  lazymatch l with
  | x :: _ => constr:(O)
  | _ :: ?r => let n := zlookup x r in constr:(S n)
  end.
Ltac zmem x l :=
  lazymatch l with
  | nil => constr:(false)
  | x :: _ => constr:(true)
  | _ :: ?r => zmem x r
  end.
Ltac zadd x l := let b := zmem x l in lazymatch b with true => l | false => constr:(x :: l) end.

(* collect atoms: pairs (zs, bs) *)
Ltac collect_z t acc :=
  let k := is_zcst t in
  lazymatch k with
  | true => acc
  | false =>
    lazymatch t with
    | Z.land ?a ?b => let acc := collect_z a acc in collect_z b acc
    | Z.lor ?a ?b => let acc := collect_z a acc in collect_z b acc
    | Z.lxor ?a ?b => let acc := collect_z a acc in collect_z b acc
    | Z.lnot ?a => collect_z a acc
    | Z.shiftl ?a ?k => let c := is_zcst k in
        lazymatch c with true => collect_z a acc | false => lazymatch acc with (?zs, ?bs) => let zs := zadd t zs in constr:((zs, bs)) end end
    | Z.shiftr ?a ?k => let c := is_zcst k in
        lazymatch c with true => collect_z a acc | false => lazymatch acc with (?zs, ?bs) => let zs := zadd t zs in constr:((zs, bs)) end end
    | (if ?c then ?a else ?b) => let acc := collect_b c acc in let acc := collect_z a acc in collect_z b acc
    | Z.b2z ?c => collect_b c acc
    | _ => lazymatch acc with (?zs, ?bs) => let zs := zadd t zs in constr:((zs, bs)) end
    end
  end
with collect_b t acc :=
  lazymatch t with
  | true => acc
  | false => acc
  | negb ?a => collect_b a acc
  | andb ?a ?b => let acc := collect_b a acc in collect_b b acc
  | orb ?a ?b => let acc := collect_b a acc in collect_b b acc
  | Z.testbit ?a ?k => let c := is_zcst k in
      lazymatch c with true => collect_z a acc | false => lazymatch acc with (?zs, ?bs) => let bs := zadd t bs in constr:((zs, bs)) end end
  | _ => lazymatch acc with (?zs, ?bs) => let bs := zadd t bs in constr:((zs, bs)) end
  end.

Ltac reify_z t zs bs :=
  let k := is_zcst t in
  lazymatch k with
  | true => let z := eval vm_compute in t in constr:(XCst z)
  | false =>
    lazymatch t with
    | Z.land ?a ?b => let x := reify_z a zs bs in let y := reify_z b zs bs in constr:(XAnd x y)
    | Z.lor ?a ?b => let x := reify_z a zs bs in let y := reify_z b zs bs in constr:(XOr x y)
    | Z.lxor ?a ?b => let x := reify_z a zs bs in let y := reify_z b zs bs in constr:(XXor x y)
    | Z.lnot ?a => let x := reify_z a zs bs in constr:(XNot x)
    | Z.shiftl ?a ?k => let c := is_zcst k in
        lazymatch c with true => let x := reify_z a zs bs in constr:(XShl x k) | false => let n := zlookup t zs in constr:(XVar n) end
    | Z.shiftr ?a ?k => let c := is_zcst k in
        lazymatch c with true => let x := reify_z a zs bs in constr:(XShr x k) | false => let n := zlookup t zs in constr:(XVar n) end
    | (if ?c then ?a else ?b) => let u := reify_b c zs bs in let x := reify_z a zs bs in let y := reify_z b zs bs in constr:(XIf u x y)
    | Z.b2z ?c => let u := reify_b c zs bs in constr:(XB2Z u)
    | _ => let n := zlookup t zs in constr:(XVar n)
    end
  end
with reify_b t zs bs :=
  lazymatch t with
  | true => constr:(CTrue)
  | false => constr:(CFalse)
  | negb ?a => let x := reify_b a zs bs in constr:(CNot x)
  | andb ?a ?b => let x := reify_b a zs bs in let y := reify_b b zs bs in constr:(CAnd x y)
  | orb ?a ?b => let x := reify_b a zs bs in let y := reify_b b zs bs in constr:(COr x y)
  | Z.testbit ?a ?k => let c := is_zcst k in
      lazymatch c with true => let x := reify_z a zs bs in constr:(CTest x k) | false => let n := zlookup t bs in constr:(CVar n) end
  | _ => let n := zlookup t bs in constr:(CVar n)
  end.

Ltac width_of x :=
  match goal with
  | H : 0 <= x < ?B |- _ =>
      let b := eval vm_compute in B in
      let c := is_zcst b in
      lazymatch c with
      | true => let w := eval vm_compute in (Z.log2_up b) in constr:(Some w)
      end
  | _ => constr:(@None Z)
  end.
Ltac widths_of zs :=
  lazymatch zs with
  | nil => constr:(@nil (option Z))
  | ?x :: ?r => let w := width_of x in let ws := widths_of r in constr:(w :: ws)
  end.

Lemma wfenv_nil env : wfenv env nil.
Proof. intros [|n] w H; discriminate. Qed.
Lemma wfenv_none x env ws : wfenv env ws -> wfenv (x :: env) (None :: ws).
Proof. intros H [|n] w E; cbn in *; [discriminate|]. apply H; exact E. Qed.
Lemma wfenv_some x w env ws : 0 <= w -> 0 <= x < 2 ^ w -> wfenv env ws -> wfenv (x :: env) (Some w :: ws).
Proof. intros Hw Hx H [|n] v E; cbn in *; [injection E as <-; auto|]. apply H; exact E. Qed.

Lemma bound_weaken x B w : (B <=? 2 ^ w) = true -> 0 <= x < B -> 0 <= x < 2 ^ w.
Proof. intros HB Hx. apply Z.leb_le in HB. lia. Qed.

Ltac solve_wfenv :=
  lazymatch goal with
  | |- wfenv _ nil => apply wfenv_nil
  | |- wfenv _ (None :: _) => apply wfenv_none; solve_wfenv
  | |- wfenv (?x :: _) (Some ?w :: _) =>
      apply wfenv_some; [vm_compute; discriminate |
        match goal with H : 0 <= x < ?B |- _ => apply (bound_weaken x B w); [vm_compute; reflexivity | exact H] end
      | solve_wfenv]
  end.

(** Conversion should unfold the semantics of expressions before anything else. *)
Global Strategy expand [ex ec nth].

(** Solves [a = b] on [Z] or [bool] and [0 <= a < B] for bit-field expressions. *)
Ltac bits :=
  lazymatch goal with
  | |- @eq Z ?a ?b =>
      let acc := collect_z a constr:((@nil Z, @nil bool)) in
      let acc := collect_z b acc in
      lazymatch acc with
      | (?zs, ?bs) =>
        let ws := widths_of zs in
        let x := reify_z a zs bs in let y := reify_z b zs bs in
        change (ex zs bs x = ex zs bs y);
        apply (check_eq_sound zs bs ws); [solve_wfenv | vm_compute; reflexivity]
      end
  | |- @eq bool ?a ?b =>
      let acc := collect_b a constr:((@nil Z, @nil bool)) in
      let acc := collect_b b acc in
      lazymatch acc with
      | (?zs, ?bs) =>
        let ws := widths_of zs in
        let x := reify_b a zs bs in let y := reify_b b zs bs in
        change (ec zs bs x = ec zs bs y);
        apply (check_beq_sound zs bs ws); [solve_wfenv | vm_compute; reflexivity]
      end
  | |- 0 <= ?a < ?B =>
      let acc := collect_z a constr:((@nil Z, @nil bool)) in
      let n := eval vm_compute in (Z.log2 B) in
      lazymatch acc with
      | (?zs, ?bs) =>
        let ws := widths_of zs in
        let x := reify_z a zs bs in
        change (0 <= ex zs bs x < 2 ^ n);
        apply (check_bound_sound zs bs ws); [solve_wfenv | vm_compute; reflexivity]
      end
  end.

Example bits_demo a b f : 0 <= a < 16 -> 0 <= b < 1024 ->
  Z.land (Z.shiftr (Z.lor (Z.lor (Z.land a 15) (Z.shiftl (Z.land b 1023) 4)) (Z.shiftl (Z.b2z f) 14)) 4) 1023 = b.
Proof. intros Ha Hb. bits. Qed.
Example bits_demo_bool c f : Z.testbit (Z.lor (Z.land c 1023) (Z.shiftl (Z.b2z f) 14)) 14 = f.
Proof. bits. Qed.
Example bits_demo_bound c f : 0 <= Z.lor (Z.land c 1023) (Z.shiftl (Z.b2z f) 14) < 2 ^ 15.
Proof. bits. Qed.
Example bits_demo_mix old new : 0 <= old < 2 ^ 32 -> 0 <= new < 2 ^ 32 ->
  Z.land (Z.lor (Z.land old (Z.lnot 255)) (Z.land new 255)) 255 = Z.land new 255.
Proof. intros. bits. Qed.
