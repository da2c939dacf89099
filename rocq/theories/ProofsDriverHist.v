(** Driver functions: what holds after any history. *)
From Coq Require Import Lia.
From Verif Require Import Base BaseProofs Bits ModelUtils ModelTlp ModelTags ModelAttrs ModelCaps ModelCapList ModelConfig ModelFunction ModelHost
  ModelPci ModelPciCaps ModelDriver SpecRegs SpecConfig SpecHost SpecPciCaps SpecDriver ProofsHost ProofsDriver ProofsDriverTree.

Section Hist.
Context (nd : nat -> node) (ND : forall k, node_ok (nd k)) (above : nat -> list nat) (TR : tree_ok above).
Local Notation cr := (tree_read nd).
Local Notation cw := (tree_write nd).
Local Notation st := (drv (nat -> fnc)).
Local Notation cm := (com nd).
Local Notation eff := (effect nd above).
Lemma same_com j (d d' : st) : same j d d' -> cm d' j = cm d j.
Proof. intros (_ & _ & S3). unfold com, command. rewrite S3. reflexivity. Qed.
Lemma decodes_kept o j d d' : eff o j d d' -> decodes (cm d j) -> decodes (cm d' j).
Proof.
  intros E [D0 D1]. split; [apply (effect_bits nd ND above o j d d' 0 E); [lia|lia|exact D0]|apply (effect_bits nd ND above o j d d' 1 E); [lia|lia|exact D1]].
Qed.
Lemma decodes_or v : decodes (Z.lor v 3) /\ decodes (Z.lor v 7).
Proof. unfold decodes. rewrite !Z.lor_spec. cbn. rewrite !orb_true_r. repeat split. Qed.
(** What happens to the counts. *)
Lemma effect_cnt o j d d' : eff o j d d' -> v_cnt d' j <= v_cnt d j \/ exists k, o = Enable k /\ (j = k \/ (v_cnt d k <= 0 /\ In j (above k))).
Proof.
  assert (SM : same j d d' -> v_cnt d' j <= v_cnt d j) by (intros (-> & _); lia).
  intros E. destruct o as [k|k|b k|k addr data]; cbn [effect] in E.
  - destruct (Nat.eqb_spec j k) as [->|H]; [right; exists k; auto|]. destruct (Z.ltb_spec 0 (v_cnt d k)); [left; exact (SM E)|]. destruct E as [E1 _].
    destruct (in_dec Nat.eq_dec j (above k)) as [I0|I0]; [right; exists k; auto|left; exact (SM (E1 (or_introl I0)))].
  - left. destruct (Nat.eqb_spec j k) as [->|H]; [destruct E as [-> _ _ _]; lia|exact (SM E)].
  - left. destruct (Nat.eqb_spec j k) as [->|H]; [destruct E as [-> _ _ _]; lia|exact (SM E)].
  - left. destruct E as (-> & _). lia.
Qed.

(** ** Decoding *)
Definition open_inv (ops : list dop) (d : st) : Prop :=
  forall k, 0 < v_cnt d k \/ In (Enable k) ops -> forall j, j = k \/ In j (above k) -> decodes (cm d j).
Lemma open_enable ops d d' k : open_inv ops d -> (forall j, eff (Enable k) j d d') -> forall j, j = k \/ In j (above k) -> decodes (cm d' j).
Proof.
  intros Q E j H. destruct (Z.ltb_spec 0 (v_cnt d k)) as [L|L]; [apply (decodes_kept _ _ _ _ (E j)); apply (Q k); auto|].
  pose proof (E j) as Ej. cbn [effect] in Ej. destruct (Nat.eqb_spec j k) as [->|N].
  - destruct Ej as [_ _ C _]. rewrite C. replace (0 <? v_cnt d k) with false by lia. apply decodes_or.
  - destruct H as [H|H]; [contradiction|]. replace (0 <? v_cnt d k) with false in Ej by lia. destruct Ej as [E1 E2].
    destruct (Z.lt_ge_cases 0 (v_cnt d j)) as [P|P].
    + rewrite (same_com _ _ _ (E1 (or_intror P))). apply (Q j); auto.
    + destruct (E2 H P) as [_ [_ _ C _]]. rewrite C. apply decodes_or.
Qed.
Lemma open_step ops o d d' : open_inv ops d -> (forall j, eff o j d d') -> open_inv (ops ++ [o]) d'.
Proof.
  intros Q E k H j Hj.
  assert (C : (0 < v_cnt d k \/ In (Enable k) ops) \/ exists m, o = Enable m /\ (k = m \/ In k (above m))).
  { destruct H as [H|H].
    - destruct (effect_cnt o k d d' (E k)) as [L|(m & -> & [->|[_ I0]])]; [left; left; lia|right; exists m; auto|right; exists m; auto].
    - apply in_app_or in H. destruct H as [H|[->|[]]]; [left; right; exact H|right; exists k; auto]. }
  destruct C as [C|(m & -> & C)].
  - apply (decodes_kept _ _ _ _ (E j)). exact (Q k C j Hj).
  - apply (open_enable ops d d' m Q E j). destruct C as [->|C]; [exact Hj|]. right. destruct Hj as [->|Hj]; [exact C|exact (above_trans nd ND above TR m k j C Hj)].
Qed.
Lemma hist_open d0 ops d : placed_ok nd (v_sys d0) -> (forall k, v_cnt d0 k = 0) -> Forall op_ok ops -> drun cr cw above ops d0 = Ok d ->
  forall k, In (Enable k) ops -> forall j, j = k \/ In j (above k) -> decodes (cm d j).
Proof.
  intros P Z0 F E k H. refine (run_inv nd ND above TR open_inv d0 P _ _ ops d F E k (or_intror H)).
  - intros m [X|[]]. rewrite Z0 in X. lia.
  - intros past o e e' Q _ _ EF. exact (open_step past o e e' Q EF).
Qed.

(** ** Bus mastering of a bridge that is not used directly *)
Definition bridge_inv (j : nat) (ops : list dop) (d : st) : Prop :=
  Forall (fun o => op_node o <> j) ops -> (0 < v_cnt d j -> Z.testbit (cm d j) 2 = true) /\
  forall k, 0 < v_cnt d k \/ In (Enable k) ops -> In j (above k) -> Z.testbit (cm d j) 2 = true.
Lemma bridge_keep j o d d' : eff o j d d' -> op_node o <> j -> Z.testbit (cm d j) 2 = true -> Z.testbit (cm d' j) 2 = true.
Proof.
  intros E N T. assert (SM : same j d d' -> Z.testbit (cm d' j) 2 = true) by (intros X; rewrite (same_com _ _ _ X); exact T).
  destruct o as [k|k|b k|k addr data]; cbn [effect op_node] in *.
  - destruct (Nat.eqb_spec j k) as [->|H]; [contradiction|]. destruct (0 <? v_cnt d k); [exact (SM E)|]. destruct E as [E1 E2].
    destruct (in_dec Nat.eq_dec j (above k)) as [I0|I0]; [|exact (SM (E1 (or_introl I0)))].
    destruct (Z.lt_ge_cases 0 (v_cnt d j)) as [L|L]; [exact (SM (E1 (or_intror L)))|]. destruct (E2 I0 L) as [_ [_ _ C _]]. rewrite C, Z.lor_spec, T. reflexivity.
  - destruct (Nat.eqb_spec j k) as [->|H]; [contradiction|exact (SM E)].
  - destruct (Nat.eqb_spec j k) as [->|H]; [contradiction|exact (SM E)].
  - destruct E as (_ & _ & C). rewrite C. exact T.
Qed.
Lemma bridge_raise j k d d' : eff (Enable k) j d d' -> v_cnt d k <= 0 -> In j (above k) -> (0 < v_cnt d j -> Z.testbit (cm d j) 2 = true) -> Z.testbit (cm d' j) 2 = true.
Proof.
  intros E L H Q. cbn [effect] in E. assert (j <> k) by (intros ->; exact (above_fresh nd ND above TR k H)). apply Nat.eqb_neq in H0. rewrite H0 in E.
  replace (0 <? v_cnt d k) with false in E by lia. destruct E as [E1 E2]. destruct (Z.lt_ge_cases 0 (v_cnt d j)) as [P|P].
  - rewrite (same_com _ _ _ (E1 (or_intror P))). apply Q. exact P.
  - destruct (E2 H P) as [_ [_ _ C _]]. rewrite C, Z.lor_spec. cbn. apply orb_true_r.
Qed.
Lemma bridge_step j ops o d d' : bridge_inv j ops d -> (forall j, eff o j d d') -> bridge_inv j (ops ++ [o]) d'.
Proof.
  intros Q E F. apply Forall_app in F. destruct F as [F1 F2]. inversion F2 as [|? ? N _]; subst. destruct (Q F1) as [Q1 Q2].
  assert (K : Z.testbit (cm d j) 2 = true -> Z.testbit (cm d' j) 2 = true) by (intros T; exact (bridge_keep j o d d' (E j) N T)).
  assert (EN : forall m, o = Enable m -> In j (above m) -> Z.testbit (cm d' j) 2 = true).
  { intros m -> H. destruct (Z.lt_ge_cases 0 (v_cnt d m)) as [L|L]; [apply K; apply (Q2 m); auto|]. exact (bridge_raise j m d d' (E j) L H Q1). }
  split.
  - intros L. destruct (effect_cnt o j d d' (E j)) as [L2|(m & -> & [->|[_ I0]])]; [apply K, Q1; lia|cbn in N; contradiction|exact (EN m eq_refl I0)].
  - intros k H Hj.
    assert (C : (0 < v_cnt d k \/ In (Enable k) ops) \/ exists m, o = Enable m /\ (k = m \/ In k (above m))).
    { destruct H as [H|H].
      - destruct (effect_cnt o k d d' (E k)) as [L|(m & -> & [->|[_ I0]])]; [left; left; lia|right; exists m; auto|right; exists m; auto].
      - apply in_app_or in H. destruct H as [H|[->|[]]]; [left; right; exact H|right; exists k; auto]. }
    destruct C as [C|(m & -> & [->|C])]; [apply K; exact (Q2 k C Hj)|exact (EN m eq_refl Hj)|exact (EN m eq_refl (above_trans nd ND above TR m k j C Hj))].
Qed.
Lemma hist_bridge d0 ops d j k : placed_ok nd (v_sys d0) -> (forall k, v_cnt d0 k = 0) -> Forall op_ok ops -> drun cr cw above ops d0 = Ok d ->
  Forall (fun o => op_node o <> j) ops -> In (Enable k) ops -> In j (above k) -> Z.testbit (cm d j) 2 = true.
Proof.
  intros P Z0 F E N H Hj. refine (proj2 (run_inv nd ND above TR (bridge_inv j) d0 P _ _ ops d F E N) k (or_intror H) Hj).
  - intros _. split; [rewrite Z0; lia|]. intros m [X|[]]. rewrite Z0 in X. lia.
  - intros past o e e' Q _ _ EF. exact (bridge_step j past o e e' Q EF).
Qed.

(** ** A function below which nothing is enabled *)
Lemma hist_leaf j : forall ops d d', placed_ok nd (v_sys d) -> Forall op_ok ops -> drun cr cw above ops d = Ok d' ->
  (forall m, In (Enable m) ops -> ~ In j (above m)) ->
  v_cnt d' j = net j (v_cnt d j) ops /\ Z.testbit (cm d' j) 2 = mastering j (v_cnt d j) (Z.testbit (cm d j) 2) ops.
Proof.
  induction ops as [|o ops IH]; intros d d' P F E H.
  - cbn in E. injection E as <-. split; reflexivity.
  - inversion F as [|? ? F1 F2]; subst. destruct (step_ok nd ND above TR o d F1 P) as (e & E1 & P1 & EF). cbn [drun] in E. rewrite E1 in E. cbn [bind] in E.
    destruct (IH e d' P1 F2 E ltac:(intros m M; apply H; right; exact M)) as [I1 I2]. rewrite I1, I2. clear I1 I2 IH E.
    pose proof (EF j) as Ej. destruct o as [k|k|b k|k addr data]; cbn [effect net mastering] in *.
    + rewrite (Nat.eqb_sym k j). destruct (Nat.eqb_spec j k) as [->|N].
      * destruct Ej as [C1 _ C3 _]. rewrite C1, C3. split; [reflexivity|]. f_equal. destruct (0 <? v_cnt d k); [reflexivity|]. rewrite Z.lor_spec. apply orb_false_r.
      * destruct (0 <? v_cnt d k); [|pose proof (proj1 Ej (or_introl (H k (or_introl eq_refl)))) as Ej2; clear Ej; rename Ej2 into Ej];
          rewrite (same_com _ _ _ Ej); destruct Ej as (-> & _); split; reflexivity.
    + rewrite (Nat.eqb_sym k j). destruct (Nat.eqb_spec j k) as [->|N].
      * destruct Ej as [C1 _ C3 _]. rewrite C1, C3. split; [reflexivity|]. f_equal. destruct (1 <? v_cnt d k); [reflexivity|]. rewrite put_bit_spec by lia. reflexivity.
      * rewrite (same_com _ _ _ Ej). destruct Ej as (-> & _). split; reflexivity.
    + rewrite (Nat.eqb_sym k j). destruct (Nat.eqb_spec j k) as [->|N].
      * destruct Ej as [C1 _ C3 _]. rewrite C1, C3. split; [reflexivity|]. f_equal. rewrite put_bit_spec by lia. reflexivity.
      * rewrite (same_com _ _ _ Ej). destruct Ej as (-> & _). split; reflexivity.
    + destruct Ej as (-> & _ & ->). split; reflexivity.
Qed.

(** ** Nothing else changes *)
Lemma hist_frame d0 ops d j : placed_ok nd (v_sys d0) -> Forall op_ok ops -> drun cr cw above ops d0 = Ok d ->
  (forall i, 3 <= i -> Z.testbit (cm d j) i = Z.testbit (cm d0 j) i) /\
  (existsb is_config ops = false -> kept1 nd j (v_sys d0 j) (v_sys d j)).
Proof.
  intros P F E. refine (run_inv nd ND above TR (fun ops d => (forall i, 3 <= i -> Z.testbit (cm d j) i = Z.testbit (cm d0 j) i) /\
    (existsb is_config ops = false -> kept1 nd j (v_sys d0 j) (v_sys d j))) d0 P _ _ ops d F E).
  - split; [reflexivity|]. intros _. apply kept1_refl.
  - intros past o e e' [Q1 Q2] _ _ EF. split.
    + intros i Hi. rewrite <- Q1 by exact Hi. apply (effect_bits nd ND above o j e e' i (EF j)); lia.
    + intros NC. rewrite existsb_app in NC. cbn in NC. apply orb_false_elim in NC. destruct NC as [N1 N2]. rewrite orb_false_r in N2.
      exact (kept1_trans nd j _ _ _ (Q2 N1) (effect_kept nd above o j e e' (EF j) N2)).
Qed.
(** The attribute [is_busmaster] never claims too much. *)
Lemma hist_flag d0 ops d j : placed_ok nd (v_sys d0) -> v_bm d0 j = false -> Forall op_ok ops -> drun cr cw above ops d0 = Ok d ->
  v_bm d j = true -> Z.testbit (cm d j) 2 = true.
Proof.
  intros P Z0 F E. refine (run_inv nd ND above TR (fun _ d => v_bm d j = true -> Z.testbit (cm d j) 2 = true) d0 P _ _ ops d F E).
  - rewrite Z0. discriminate.
  - intros past o e e' Q _ _ EF. pose proof (EF j) as Ej. assert (SM : same j e e' -> v_bm e' j = true -> Z.testbit (cm e' j) 2 = true).
    { intros X. rewrite (same_com _ _ _ X). destruct X as (_ & -> & _). exact Q. }
    destruct o as [k|k|b k|k addr data]; cbn [effect] in Ej.
    + destruct (Nat.eqb_spec j k) as [->|N].
      * destruct Ej as [_ -> -> _]. intros B. specialize (Q B). destruct (0 <? v_cnt e k); [exact Q|]. rewrite Z.lor_spec, Q. reflexivity.
      * destruct (0 <? v_cnt e k); [exact (SM Ej)|]. destruct Ej as [E1 E2]. destruct (in_dec Nat.eq_dec j (above k)) as [I0|I0]; [|exact (SM (E1 (or_introl I0)))].
        destruct (Z.lt_ge_cases 0 (v_cnt e j)) as [L|L]; [exact (SM (E1 (or_intror L)))|]. destruct (E2 I0 L) as [_ [_ _ C _]]. intros _. rewrite C, Z.lor_spec. cbn. apply orb_true_r.
    + destruct (Nat.eqb_spec j k) as [->|N]; [|exact (SM Ej)]. destruct Ej as [_ -> -> _]. destruct (1 <? v_cnt e k); [exact Q|discriminate].
    + destruct (Nat.eqb_spec j k) as [->|N]; [|exact (SM Ej)]. destruct Ej as [_ -> -> _]. intros ->. rewrite put_bit_spec by lia. reflexivity.
    + destruct Ej as (_ & -> & ->). exact Q.
Qed.
End Hist.
