(** Proof tools for registers: the update as a bit-field expression, attribute lookups, layouts. *)
From Verif Require Import Base BaseProofs Bits ModelUtils SpecUtils ProofsUtils ModelAttrs SpecRegs.

Definition em4 (be : Z) : Z :=
  Z.lor (Z.lor (Z.lor (if Z.testbit be 0 then 0xff else 0) (if Z.testbit be 1 then 0xff00 else 0))
    (if Z.testbit be 2 then 0xff0000 else 0)) (if Z.testbit be 3 then 0xff000000 else 0).
Definition upd_z (rw w1c be data old : Z) : Z :=
  Z.lor (Z.land old (Z.lnot (Z.land (em4 be) (Z.lor rw (Z.land w1c data))))) (Z.land (Z.land data rw) (em4 be)).

Lemma em4_bit be i : 0 <= i -> Z.testbit (em4 be) i = (i <? 32) && Z.testbit be (i / 8).
Proof.
  intros Hi. unfold em4. rewrite !Z.lor_spec.
  assert (B : forall (c : bool) k, 0 <= k -> Z.testbit (if c then Z.shiftl 255 (8 * k) else 0) i = c && (i / 8 =? k)).
  { intros c k Hk. destruct c; [apply testbit_ff; lia|apply Z.bits_0]. }
  change 0xff with (Z.shiftl 255 (8 * 0)). change 0xff00 with (Z.shiftl 255 (8 * 1)).
  change 0xff0000 with (Z.shiftl 255 (8 * 2)). change 0xff000000 with (Z.shiftl 255 (8 * 3)).
  rewrite !B by lia.
  destruct (i <? 32) eqn:L.
  - assert (C : i / 8 = 0 \/ i / 8 = 1 \/ i / 8 = 2 \/ i / 8 = 3) by lia.
    destruct C as [C|[C|[C|C]]]; rewrite C; cbn [Z.eqb Pos.eqb andb];
      rewrite ?andb_false_r, ?andb_true_r, ?orb_false_r, ?orb_false_l; reflexivity.
  - replace (i / 8 =? 0) with false by lia. replace (i / 8 =? 1) with false by lia.
    replace (i / 8 =? 2) with false by lia. replace (i / 8 =? 3) with false by lia.
    rewrite !andb_false_r. reflexivity.
Qed.

Lemma upd_z_bit rw w1c be data old i : 0 <= rw < 2 ^ 32 -> 0 <= w1c < 2 ^ 32 -> Z.land rw w1c = 0 -> 0 <= i ->
  Z.testbit (upd_z rw w1c be data old) i = upd_bit rw w1c be data old i.
Proof.
  intros Hr Hw D Hi. unfold upd_z, upd_bit.
  rewrite Z.lor_spec, Z.land_spec, Z.lnot_spec by lia. rewrite !Z.land_spec, Z.lor_spec, Z.land_spec, em4_bit by lia.
  assert (E : Z.testbit rw i && Z.testbit w1c i = false) by (rewrite <- Z.land_spec, D; apply Z.bits_0).
  destruct (i <? 32) eqn:L.
  - destruct (Z.testbit be (i / 8)), (Z.testbit rw i), (Z.testbit w1c i), (Z.testbit data i), (Z.testbit old i);
      try reflexivity; discriminate E.
  - rewrite (testbit_high rw 32 i), (testbit_high w1c 32 i) by lia.
    destruct (Z.testbit be (i / 8)), (Z.testbit data i), (Z.testbit old i); reflexivity.
Qed.

(** How a register proof is finished: agreement outside [exc]. *)
Lemma upd_intro rw w1c exc be data old new : 0 <= rw < 2 ^ 32 -> 0 <= w1c < 2 ^ 32 -> Z.land rw w1c = 0 ->
  Z.land new (Z.lnot exc) = Z.land (upd_z rw w1c be data old) (Z.lnot exc) ->
  forall i, 0 <= i -> Z.testbit exc i = false -> Z.testbit new i = upd_bit rw w1c be data old i.
Proof.
  intros Hr Hw D E i Hi X. rewrite <- upd_z_bit by assumption.
  apply (f_equal (fun z => Z.testbit z i)) in E. rewrite !Z.land_spec, Z.lnot_spec, X, !andb_true_r in E by lia. exact E.
Qed.
Lemma upd_none be data old i : upd_bit 0 0 be data old i = Z.testbit old i.
Proof. unfold upd_bit. rewrite !Z.bits_0. destruct (Z.testbit be (i / 8)); reflexivity. Qed.

Lemma bit_testbit d k : 0 <= k -> bit d k = Z.testbit d k.
Proof. intros H. unfold bit. apply zbool_testbit. exact H. Qed.
Lemma zbool_if (c : bool) x y : zbool (if c then x else y) = (c && zbool x) || (negb c && zbool y).
Proof. destruct c; cbn; rewrite ?orb_false_r; reflexivity. Qed.
Lemma zbool_b2z b : zbool (Z.b2z b) = b.
Proof. destruct b; reflexivity. Qed.
Lemma zbool_0 : zbool 0 = false.
Proof. reflexivity. Qed.

(** [byte_mask_update] as a bit-field expression, for up to eight bytes. *)
Definition em8 (be : Z) : Z :=
  Z.lor (em4 be) (Z.lor (Z.lor (Z.lor (if Z.testbit be 4 then 0xff00000000 else 0) (if Z.testbit be 5 then 0xff0000000000 else 0))
    (if Z.testbit be 6 then 0xff000000000000 else 0)) (if Z.testbit be 7 then 0xff00000000000000 else 0)).
Lemma em8_bit be i : 0 <= i -> Z.testbit (em8 be) i = (i <? 64) && Z.testbit be (i / 8).
Proof.
  intros Hi. unfold em8. rewrite !Z.lor_spec, em4_bit by lia.
  assert (B : forall (c : bool) k, 0 <= k -> Z.testbit (if c then Z.shiftl 255 (8 * k) else 0) i = c && (i / 8 =? k)).
  { intros c k Hk. destruct c; [apply testbit_ff; lia|apply Z.bits_0]. }
  change 0xff00000000 with (Z.shiftl 255 (8 * 4)). change 0xff0000000000 with (Z.shiftl 255 (8 * 5)).
  change 0xff000000000000 with (Z.shiftl 255 (8 * 6)). change 0xff00000000000000 with (Z.shiftl 255 (8 * 7)).
  rewrite !B by lia.
  destruct (i <? 32) eqn:L.
  - replace (i <? 64) with true by lia.
    replace (i / 8 =? 4) with false by lia. replace (i / 8 =? 5) with false by lia.
    replace (i / 8 =? 6) with false by lia. replace (i / 8 =? 7) with false by lia.
    rewrite !andb_false_r, !orb_false_r. reflexivity.
  - destruct (i <? 64) eqn:L2; cbn [andb orb].
    + assert (C : i / 8 = 4 \/ i / 8 = 5 \/ i / 8 = 6 \/ i / 8 = 7) by lia.
      destruct C as [C|[C|[C|C]]]; rewrite C; cbn [Z.eqb Pos.eqb andb];
        rewrite ?andb_false_r, ?andb_true_r, ?orb_false_r, ?orb_false_l; reflexivity.
    + replace (i / 8 =? 4) with false by lia. replace (i / 8 =? 5) with false by lia.
      replace (i / 8 =? 6) with false by lia. replace (i / 8 =? 7) with false by lia.
      rewrite !andb_false_r. reflexivity.
Qed.
Lemma bmu_em8 old mask new bm : 0 <= mask < 256 ->
  byte_mask_update old mask new bm =
  Z.lor (Z.land old (Z.lnot (Z.land (em8 mask) bm))) (Z.land new (Z.land (em8 mask) bm)).
Proof.
  intros Hm. apply Z.bits_inj'. intros i Hi. rewrite byte_mask_update_spec by lia.
  rewrite Z.lor_spec, Z.land_spec, Z.lnot_spec by lia. rewrite !Z.land_spec, em8_bit by lia.
  destruct (i <? 64) eqn:L; cbn [andb].
  - destruct (Z.testbit mask (i / 8)), (Z.testbit bm i), (Z.testbit old i), (Z.testbit new i); reflexivity.
  - rewrite (testbit_high mask 8 (i / 8)) by lia. cbn. rewrite andb_true_r, andb_false_r, orb_false_r. reflexivity.
Qed.
Lemma bmu_em4 old mask new bm : 0 <= mask < 16 ->
  byte_mask_update old mask new bm =
  Z.lor (Z.land old (Z.lnot (Z.land (em4 mask) bm))) (Z.land new (Z.land (em4 mask) bm)).
Proof.
  intros Hm. rewrite bmu_em8 by lia. replace (em8 mask) with (em4 mask); [reflexivity|].
  unfold em8. rewrite (testbit_high mask 4 4), (testbit_high mask 4 5), (testbit_high mask 4 6), (testbit_high mask 4 7) by lia.
  cbn [Z.lor]. rewrite Z.lor_0_r. reflexivity.
Qed.

(** ** Layouts *)
Lemma slice_land v l w : 0 <= l -> 0 <= w -> slice v l w = Z.land (Z.shiftr v l) (Z.ones w).
Proof. intros Hl Hw. unfold slice. rewrite Z.land_ones, Z.shiftr_div_pow2 by lia. reflexivity. Qed.
Lemma flag_b2z x : (if x =? 0 then 0 else 1) = Z.b2z (zbool x).
Proof. unfold zbool. destruct (x =? 0); reflexivity. Qed.

(** [fval] as a bit-field expression *)
Definition fval_z (s : attrs) (f : fld) : Z :=
  match what f with Num a => Z.land (s a) (Z.ones (width f)) | Flag a => Z.b2z (zbool (s a)) | Const v => v
  | Part a lo => Z.land (Z.shiftr (s a) lo) (Z.ones (width f)) end.
Definition part_ok (f : fld) : bool := match what f with Part _ lo => 0 <=? lo | _ => true end.
Lemma fval_z_ok s f : 0 <= width f -> part_ok f = true -> fval s f = fval_z s f.
Proof.
  unfold part_ok. intros H P. unfold fval, fval_z. destruct (what f); [rewrite Z.land_ones by lia; reflexivity|apply flag_b2z|reflexivity|].
  rewrite Z.land_ones, Z.shiftr_div_pow2 by lia. reflexivity.
Qed.
Definition fmask (f : fld) : Z := Z.shiftl (Z.ones (width f)) (lsb f).
Definition covered (l : list fld) : Z := fold_right (fun f a => Z.lor (fmask f) a) 0 l.
Definition fok (f : fld) : bool := (0 <=? lsb f) && (0 <=? width f) && part_ok f.
(** all fields that are not excluded *)
Fixpoint fields_ok (l : list fld) (exc : Z) (s : attrs) (v : Z) : Prop :=
  match l with
  | [] => True
  | f :: r =>
    (if Z.land exc (fmask f) =? 0 then Z.land (Z.shiftr v (lsb f)) (Z.ones (width f)) = fval_z s f else True) /\
    fields_ok r exc s v
  end.
Lemma fmask_bit f i : fok f = true -> 0 <= i -> Z.testbit (fmask f) i = (lsb f <=? i) && (i <? lsb f + width f).
Proof.
  unfold fok. intros H Hi. apply andb_prop in H. destruct H as [H _]. unfold fmask. rewrite Z.shiftl_spec by lia.
  destruct (Z.leb_spec (lsb f) i) as [L|L]; cbn [andb].
  - rewrite Z.testbit_ones by lia. destruct (i <? lsb f + width f) eqn:E; lia.
  - apply Z.testbit_neg_r. lia.
Qed.
Lemma covered_bit l i : forallb fok l = true -> 0 <= i ->
  (forall f, In f l -> ~ (lsb f <= i < lsb f + width f)) -> Z.testbit (covered l) i = false.
Proof.
  induction l as [|f r IH]; cbn [forallb covered fold_right]; intros H Hi N; [apply Z.bits_0|].
  apply andb_prop in H. destruct H as [H1 H2]. rewrite Z.lor_spec, fmask_bit by assumption.
  fold (covered r). rewrite IH; [|exact H2|exact Hi|intros g G; apply N; right; exact G].
  specialize (N f (or_introl eq_refl)). lia.
Qed.
Lemma fields_ok_in l exc s v : fields_ok l exc s v -> forallb fok l = true -> forall f, In f l ->
  (forall i, lsb f <= i < lsb f + width f -> Z.testbit exc i = false) -> slice v (lsb f) (width f) = fval s f.
Proof.
  induction l as [|g r IH]; cbn [fields_ok forallb In]; intros H K f F X; [contradiction|].
  apply andb_prop in K. destruct K as [K1 K2]. destruct H as [H1 H2].
  destruct F as [->|F]; [|exact (IH H2 K2 f F X)].
  assert (Kf := K1). unfold fok in Kf. apply andb_prop in Kf. destruct Kf as [Kf Kp].
  replace (Z.land exc (fmask f) =? 0) with true in H1.
  - rewrite slice_land, fval_z_ok by (exact Kp || lia). exact H1.
  - symmetry. apply Z.eqb_eq. apply Z.bits_inj'. intros i Hi. rewrite Z.land_spec, fmask_bit, Z.bits_0 by assumption.
    destruct ((lsb f <=? i) && (i <? lsb f + width f)) eqn:E; [rewrite X by lia; reflexivity|apply andb_false_r].
Qed.
Lemma shows_intro l exc s v : forallb fok l = true -> 0 <= v < 2 ^ 32 -> fields_ok l exc s v ->
  Z.land v (Z.lnot (Z.lor (covered l) exc)) = 0 -> shows l exc s v.
Proof.
  intros K B F R. split; [exact B|]. split.
  - intros f Hf X. exact (fields_ok_in l exc s v F K f Hf X).
  - intros i Hi N X. apply (f_equal (fun z => Z.testbit z i)) in R.
    rewrite Z.land_spec, Z.lnot_spec, Z.lor_spec, X, (covered_bit l i K Hi N), Z.bits_0 in R by lia.
    rewrite andb_true_r in R. exact R.
Qed.

(** Attribute lookups in a written object reduce to the object before; then bit-fields remain. *)
Ltac bitsimp := rewrite ?bit_testbit by lia; rewrite ?zbool_if, ?zbool_b2z, ?zbool_0.
Ltac shows_solve :=
  apply shows_intro;
  [ reflexivity
  | bits
  | cbn [fields_ok lsb width what fval_z];
    repeat match goal with |- context [Z.land ?e (fmask ?f) =? 0] =>
      let b := eval vm_compute in (Z.land e (fmask f) =? 0) in change (Z.land e (fmask f) =? 0) with b; cbn iota end;
    repeat split; try exact Logic.I; bits
  | match goal with |- context [covered ?l] =>
      let m := eval vm_compute in (covered l) in change (covered l) with m end; bits ].
