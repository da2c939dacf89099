(** Lists of capabilities: sorting, linking, placement. *)
From Coq Require Import Permutation Sorting.Sorted.
From Verif Require Import Base ModelUtils ModelAttrs ModelCaps ModelCapList SpecCapList.

(** ** Everything but the next pointer *)
Definition same (c d : cap) : Prop :=
  c_kind d = c_kind c /\ c_id d = c_id c /\ c_ver d = c_ver c /\ c_len d = c_len c /\ c_off d = c_off c /\ c_attr d = c_attr c.
Lemma same_refl c : same c c. Proof. repeat split. Qed.
Lemma same_trans a b c : same a b -> same b c -> same a c.
Proof. unfold same. intuition congruence. Qed.
Lemma same_next n c : same c (c_set_next n c). Proof. repeat split. Qed.
Lemma same_off c d : same c d -> off d = off c.
Proof. intros (_ & _ & _ & _ & H & _). unfold off. rewrite H. reflexivity. Qed.
Lemma same_len c d : same c d -> c_len d = c_len c.
Proof. intros (_ & _ & _ & H & _). exact H. Qed.
Lemma hset_eq i c h : hset i c h i = c.
Proof. unfold hset. rewrite Nat.eqb_refl. reflexivity. Qed.
Lemma hset_ne i j c h : j <> i -> hset i c h j = h j.
Proof. intros H. unfold hset. destruct (Nat.eqb_spec j i); [contradiction|reflexivity]. Qed.
Lemma same_hset i c h j : same (h i) c -> same (h j) (hset i c h j).
Proof.
  intros H. unfold hset. destruct (Nat.eqb_spec j i) as [->|]; [exact H|apply same_refl].
Qed.

(** ** Linking *)
Lemma link_out l : forall h j, ~ In j l -> link l h j = h j.
Proof.
  induction l as [|i l IH]; intros h j H; [reflexivity|].
  destruct l as [|k l]; [reflexivity|].
  change (link (i :: k :: l) h) with (link (k :: l)
    (hset k (c_set_next 0 (hset i (c_set_next (off (h k) * 4) (h i)) h k)) (hset i (c_set_next (off (h k) * 4) (h i)) h))).
  rewrite IH by (intros X; apply H; right; exact X).
  rewrite !hset_ne; [reflexivity|intros ->; apply H; left; reflexivity|intros ->; apply H; right; left; reflexivity].
Qed.
Lemma link_same l : forall h j, same (h j) (link l h j).
Proof.
  induction l as [|i l IH]; intros h j; [apply same_refl|].
  destruct l as [|k l]; [apply same_refl|].
  change (link (i :: k :: l) h) with (link (k :: l)
    (hset k (c_set_next 0 (hset i (c_set_next (off (h k) * 4) (h i)) h k)) (hset i (c_set_next (off (h k) * 4) (h i)) h))).
  eapply same_trans; [|apply IH].
  eapply same_trans; [|apply same_hset; apply same_next]. apply same_hset. apply same_next.
Qed.
Lemma link_off l h j : off (link l h j) = off (h j). Proof. apply same_off, link_same. Qed.

Lemma link_chained l : forall h, NoDup l -> (forall i, l = [i] -> c_next (h i) = 0) -> chained (link l h) l.
Proof.
  induction l as [|i l IH]; intros h N S1; [exact Logic.I|].
  destruct l as [|k l]; [cbn; apply S1; reflexivity|].
  set (h1 := hset i (c_set_next (off (h k) * 4) (h i)) h).
  set (h2 := hset k (c_set_next 0 (h1 k)) h1).
  change (link (i :: k :: l) h) with (link (k :: l) h2).
  inversion N as [|x y Hi N']; subst.
  assert (K : k <> i) by (intros ->; apply Hi; left; reflexivity).
  change (c_next (link (k :: l) h2 i) = off (link (k :: l) h2 k) * 4 /\ chained (link (k :: l) h2) (k :: l)). split.
  - rewrite (link_out _ _ i) by exact Hi. rewrite link_off. unfold h2. rewrite hset_ne by auto. rewrite hset_eq.
    unfold h1. rewrite hset_eq. rewrite hset_ne by exact K. reflexivity.
  - apply IH; [exact N'|]. intros j E. injection E as <- _. unfold h2. rewrite hset_eq. reflexivity.
Qed.

(** ** Sorting *)
Definition le_off (h : heap) (i j : nat) : Prop := off (h i) <= off (h j).
Lemma insert_perm h i l : Permutation (insert h i l) (i :: l).
Proof.
  induction l as [|j l IH]; [reflexivity|]. cbn. destruct (off (h j) <=? off (h i)); [|reflexivity].
  rewrite IH. apply perm_swap.
Qed.
Lemma insert_sorted h i l : StronglySorted (le_off h) l -> StronglySorted (le_off h) (insert h i l).
Proof.
  induction 1 as [|j l S1 IH F]; [repeat constructor|]. cbn. destruct (Z.leb_spec (off (h j)) (off (h i))).
  - constructor; [exact IH|]. apply Forall_forall. intros x X.
    apply (Permutation_in _ (insert_perm h i l)) in X. destruct X as [<-|X]; [exact H|].
    rewrite Forall_forall in F. auto.
  - constructor; [constructor; assumption|]. constructor; [unfold le_off; lia|].
    eapply Forall_impl; [|exact F]. unfold le_off. intros; lia.
Qed.
Lemma sort_gen h l : forall a, StronglySorted (le_off h) a ->
  StronglySorted (le_off h) (fold_left (fun a i => insert h i a) l a) /\
  Permutation (fold_left (fun a i => insert h i a) l a) (l ++ a).
Proof.
  induction l as [|i l IH]; intros a S1; [split; [exact S1|reflexivity]|]. cbn.
  destruct (IH (insert h i a) (insert_sorted h i a S1)) as (A & B). split; [exact A|].
  rewrite B, insert_perm. symmetry. apply Permutation_middle.
Qed.
Lemma sort_sorted h l : StronglySorted (le_off h) (sort h l).
Proof. apply (sort_gen h l []). constructor. Qed.
Lemma sort_perm h l : Permutation (sort h l) l.
Proof. destruct (sort_gen h l [] (SSorted_nil _)) as (_ & B). rewrite app_nil_r in B. exact B. Qed.

Lemma sorted_off h h' l : (forall i, In i l -> off (h' i) = off (h i)) ->
  StronglySorted (le_off h) l -> StronglySorted (le_off h') l.
Proof.
  induction l as [|i l IH]; intros E S1; [constructor|]. inversion S1 as [|x y S2 F]; subst. constructor.
  - apply IH; [intros; apply E; right; assumption|assumption].
  - rewrite Forall_forall in *. intros j J. unfold le_off. rewrite (E i (or_introl eq_refl)), (E j (or_intror J)).
    exact (F j J).
Qed.

(** ** [list.remove] *)
Lemma remove1_out i l : ~ In i l -> remove1 i l = l.
Proof.
  induction l as [|j l IH]; intros H; [reflexivity|]. cbn. destruct (Nat.eqb_spec j i) as [->|].
  - exfalso. apply H. left. reflexivity.
  - rewrite IH; [reflexivity|intros X; apply H; right; exact X].
Qed.
Lemma remove1_in i l j : NoDup l -> In j (remove1 i l) <-> In j l /\ j <> i.
Proof.
  induction l as [|k l IH]; intros N; [cbn; tauto|]. inversion N; subst. cbn. destruct (Nat.eqb_spec k i) as [->|E].
  - split; [intros H; split; [right; exact H|intros ->; contradiction]|intros [[<-|H] K]; [contradiction|exact H]].
  - cbn. rewrite IH by assumption. split.
    + intros [<-|[A B]]; [split; [left; reflexivity|exact E]|split; [right; exact A|exact B]].
    + intros [[<-|A] B]; [left; reflexivity|right; split; assumption].
Qed.
Lemma remove1_nodup i l : NoDup l -> NoDup (remove1 i l).
Proof.
  induction l as [|k l IH]; intros N; [constructor|]. inversion N; subst. cbn. destruct (Nat.eqb_spec k i); [assumption|].
  constructor; [|apply IH; assumption]. rewrite remove1_in by assumption. tauto.
Qed.
Lemma remove1_sorted i (R : nat -> nat -> Prop) l : StronglySorted R l -> StronglySorted R (remove1 i l).
Proof.
  induction 1 as [|k l S1 IH F]; [constructor|]. cbn. destruct (Nat.eqb_spec k i); [assumption|].
  constructor; [exact IH|]. rewrite Forall_forall in *. intros x X. apply F.
  clear -X. induction l as [|y l IH]; [exact X|]. cbn in X. destruct (Nat.eqb y i); [right; exact X|].
  destruct X as [<-|X]; [left; reflexivity|right; auto].
Qed.

(** ** Building the list *)
Lemma build_eq l h : build l h = (link (sort h l) h, sort h l). Proof. reflexivity. Qed.

(** ** The automatic position *)
Section auto.
  Variables (h : heap) (len : Z).
  Let F := auto_off h len.
  Definition ends_at (i : nat) : Z := off (h i) + c_len (h i).
  Lemma auto_cons i l o : F (i :: l) o =
    F l (if (off (h i) <? o + len - 1) && (o <=? ends_at i - 1) then ends_at i else o).
  Proof. reflexivity. Qed.
  Lemma auto_ge l : forall o, o <= F l o.
  Proof.
    induction l as [|i l IH]; intros o; [cbn; lia|]. rewrite auto_cons.
    destruct ((off (h i) <? o + len - 1) && (o <=? ends_at i - 1)) eqn:E; [|apply IH].
    eapply Z.le_trans; [|apply IH]. lia.
  Qed.
  Lemma auto_stay l : forall o, (forall i, In i l -> o + len - 1 <= off (h i)) -> F l o = o.
  Proof.
    induction l as [|i l IH]; intros o H; [reflexivity|]. rewrite auto_cons.
    replace (off (h i) <? o + len - 1) with false by (specialize (H i (or_introl eq_refl)); lia).
    apply IH. intros j J. apply H. right. exact J.
  Qed.
  Lemma auto_free l : forall o, StronglySorted (le_off h) l -> forall i, In i l ->
    ends_at i <= F l o \/ F l o + len - 1 <= off (h i).
  Proof.
    induction l as [|c l IH]; intros o S1 i Hi; [destruct Hi|]. inversion S1 as [|x y S2 F1]; subst.
    rewrite auto_cons. destruct Hi as [<-|Hi]; [|apply IH; assumption].
    destruct ((off (h c) <? o + len - 1) && (o <=? ends_at c - 1)) eqn:E.
    - left. apply auto_ge.
    - destruct (Z.leb_spec (ends_at c) o).
      + left. eapply Z.le_trans; [exact H|apply auto_ge].
      + right. rewrite auto_stay; [lia|]. rewrite Forall_forall in F1. intros j J. specialize (F1 j J).
        unfold le_off in F1. lia.
  Qed.
  Lemma auto_first l : forall o p, o <= p ->
    (forall i, In i l -> ends_at i <= p \/ p + len <= off (h i)) -> F l o <= p.
  Proof.
    induction l as [|c l IH]; intros o p H D; [exact H|]. rewrite auto_cons. apply IH; [|intros; apply D; right; assumption].
    destruct ((off (h c) <? o + len - 1) && (o <=? ends_at c - 1)) eqn:E; [|exact H].
    destruct (D c (or_introl eq_refl)); lia.
  Qed.
End auto.

(** ** Everything but the next pointer and the offset *)
Definition same0 (c d : cap) : Prop :=
  c_kind d = c_kind c /\ c_id d = c_id c /\ c_ver d = c_ver c /\ c_len d = c_len c /\ c_attr d = c_attr c.
Lemma same0_refl c : same0 c c. Proof. repeat split. Qed.
Lemma same0_trans a b c : same0 a b -> same0 b c -> same0 a c.
Proof. unfold same0. intuition congruence. Qed.
Lemma same_same0 c d : same c d -> same0 c d.
Proof. unfold same, same0. intuition. Qed.
Lemma same0_off o c : same0 c (c_set_off o c). Proof. repeat split. Qed.
Lemma same0_len c d : same0 c d -> c_len d = c_len c. Proof. intros (_ & _ & _ & H & _). exact H. Qed.
Lemma same0_hset i c h j : same0 (h i) c -> same0 (h j) (hset i c h j).
Proof. intros H. unfold hset. destruct (Nat.eqb_spec j i) as [->|]; [exact H|apply same0_refl]. Qed.
Lemma apart_same a b c d : same a c -> same b d -> apart a b -> apart c d.
Proof. intros H K. unfold apart. rewrite (same_off _ _ H), (same_off _ _ K), (same_len _ _ H), (same_len _ _ K). auto. Qed.
Lemma apart_sym a b : apart a b -> apart b a. Proof. unfold apart. tauto. Qed.

(** What a rebuilt list looks like. *)
Record built (h : heap) (l : list nat) (h' : heap) (l' : list nat) : Prop := {
  b_perm : Permutation l' l;
  b_sorted : StronglySorted (le_off h') l';
  b_same : forall j, same (h j) (h' j);
  b_out : forall j, ~ In j l -> h' j = h j;
  b_chain : (2 <= length l)%nat \/ (forall i, l = [i] -> c_next (h i) = 0) -> chained h' l' }.
Lemma build_built h l : NoDup l -> built h l (fst (build l h)) (snd (build l h)).
Proof.
  intros N. rewrite build_eq. cbn [fst snd]. pose proof (sort_perm h l) as P. constructor.
  - exact P.
  - apply (sorted_off h); [intros; apply link_off|apply sort_sorted].
  - intros j. apply link_same.
  - intros j J. apply link_out. intros X. apply J. apply (Permutation_in _ P X).
  - intros C. apply link_chained; [eapply Permutation_NoDup; [symmetry; exact P|exact N]|].
    intros i E. pose proof (Permutation_length P) as L. rewrite E in *. destruct C as [C|C]; [cbn in L; lia|].
    apply C. apply Permutation_length_1_inv. exact P.
Qed.
(** One automatic placement. *)
Record placed (start : Z) (i : nat) (h : heap) (l : list nat) (h' : heap) (l' : list nat) : Prop := {
  pl_perm : Permutation l' (i :: l);
  pl_sorted : StronglySorted (le_off h') l';
  pl_same : forall j, j <> i -> same (h j) (h' j);
  pl_same0 : forall j, same0 (h j) (h' j);
  pl_out : forall j, ~ In j (i :: l) -> h' j = h j;
  pl_off : c_off (h' i) = Some (auto_off h (c_len (h i)) l start);
  pl_chain : l <> [] \/ c_next (h i) = 0 -> chained h' l' }.
Lemma register_auto_placed start i h l : NoDup l -> ~ In i l ->
  placed start i h l (fst (register_auto start i (h, l))) (snd (register_auto start i (h, l))).
Proof.
  intros N Hi. unfold register_auto. rewrite remove1_out by exact Hi.
  set (o := auto_off _ _ _ _). set (h1 := hset i _ h).
  assert (N' : NoDup (l ++ [i])).
  { eapply Permutation_NoDup; [apply Permutation_cons_append|]. constructor; assumption. }
  assert (P : Permutation (l ++ [i]) (i :: l)) by (symmetry; apply Permutation_cons_append).
  destruct (build_built h1 (l ++ [i]) N') as [B1 B2 B3 B4 B5]. constructor.
  - rewrite B1. exact P.
  - exact B2.
  - intros j J. eapply same_trans; [|apply B3]. unfold h1. rewrite hset_ne by exact J. apply same_refl.
  - intros j. eapply same0_trans; [|apply same_same0, B3]. apply same0_hset. apply same0_off.
  - intros j J. rewrite B4.
    + unfold h1. apply hset_ne. intros ->. apply J. left. reflexivity.
    + intros X. apply J. apply (Permutation_in _ P X).
  - destruct (B3 i) as (_ & _ & _ & _ & E & _). rewrite E. unfold h1. rewrite hset_eq. reflexivity.
  - intros C. apply B5. destruct l as [|k l]; [|left; rewrite app_length; cbn; lia].
    right. intros j E. injection E as <-. destruct C as [C|C]; [contradiction C; reflexivity|].
    unfold h1. rewrite hset_eq. exact C.
Qed.

Lemma placed_dis start i h l h' l' : placed start i h l h' l' -> ~ In i l -> NoDup l ->
  StronglySorted (le_off h) l -> (forall j, 0 < c_len (h j)) -> disjoint h l -> fits start i h l -> disjoint h' l'.
Proof.
  intros [P1 P2 P3 P4 P5 P6 P7] Hi N S1 LP D Fi.
  assert (A : forall j, In j l -> apart (h' i) (h' j)).
  { intros j J. assert (j <> i) by (intros ->; contradiction).
    unfold apart. rewrite (same_off _ _ (P3 j H)), (same_len _ _ (P3 j H)), (same0_len _ _ (P4 i)).
    unfold off at 1 4. rewrite P6. specialize (Fi j J).
    destruct (auto_free h (c_len (h i)) l start S1 j J) as [K|K]; unfold ends_at in *; lia. }
  intros a b Ha Hb AB. apply (Permutation_in _ P1) in Ha, Hb.
  destruct Ha as [<-|Ha], Hb as [<-|Hb]; [contradiction|apply A; exact Hb|apply apart_sym, A; exact Ha|].
  apply (apart_same (h a) (h b)); [apply P3; intros ->; contradiction|apply P3; intros ->; contradiction|].
  apply D; assumption.
Qed.

Lemma nodup_app_r {A} (a b : list A) : NoDup (a ++ b) -> NoDup b.
Proof. induction a; intros N; [exact N|inversion N; auto]. Qed.
Definition auto_step (start : Z) (hl : heap * list nat) (j : nat) : heap * list nat :=
  let (h, l) := hl in register_auto start j (hset j (c_set_off None (h j)) h, l).

(** Several automatic placements. *)
Record placed_all (start : Z) (js : list nat) (h : heap) (l : list nat) (h' : heap) (l' : list nat) : Prop := {
  pa_perm : Permutation l' (js ++ l);
  pa_sorted : StronglySorted (le_off h') l';
  pa_same : forall j, ~ In j js -> same (h j) (h' j);
  pa_same0 : forall j, same0 (h j) (h' j);
  pa_out : forall j, ~ In j (js ++ l) -> h' j = h j;
  pa_chain : l <> [] -> js <> [] -> chained h' l';
  pa_off : forall j, In j l' -> c_off (h j) <> None -> c_off (h' j) <> None }.
Lemma autos_placed start js : forall h l, NoDup (js ++ l) -> StronglySorted (le_off h) l ->
  (js = [] -> fold_left (auto_step start) js (h, l) = (h, l)) /\
  placed_all start js h l (fst (fold_left (auto_step start) js (h, l))) (snd (fold_left (auto_step start) js (h, l))).
Proof.
  induction js as [|j js IH]; intros h l N S1.
  - split; [reflexivity|]. cbn. constructor; auto using same_refl, same0_refl. intros _ H. contradiction H. reflexivity.
  - split; [discriminate|]. cbn [fold_left].
    inversion N as [|x y Hj N']; subst.
    assert (Hjl : ~ In j l) by (intros X; apply Hj; apply in_or_app; right; exact X).
    pose proof (nodup_app_r _ _ N') as Nl.
    set (h0 := hset j (c_set_off None (h j)) h).
    pose proof (register_auto_placed start j h0 l Nl Hjl) as [P1 P2 P3 P4 P5 P6 P7].
    change (auto_step start (h, l) j) with (register_auto start j (h0, l)).
    destruct (register_auto start j (h0, l)) as [h1 l1] eqn:E. cbn [fst snd] in *.
    assert (N1 : NoDup (js ++ l1)).
    { eapply Permutation_NoDup; [|exact N]. rewrite P1. rewrite <- Permutation_middle. reflexivity. }
    destruct (IH h1 l1 N1 P2) as (I0 & [Q1 Q2 Q3 Q4 Q5 Q6 Q7]).
    assert (L1 : l1 <> []) by (intros ->; apply Permutation_length in P1; cbn in P1; lia).
    constructor.
    + rewrite Q1, P1. symmetry. apply Permutation_middle.
    + exact Q2.
    + intros x X. assert (x <> j /\ ~ In x js) as [X1 X2].
      { split; [intros ->; apply X; left; reflexivity|intros Y; apply X; right; exact Y]. }
      eapply same_trans; [|apply Q3; exact X2]. eapply same_trans; [|apply P3; exact X1].
      unfold h0. rewrite hset_ne by exact X1. apply same_refl.
    + intros x. eapply same0_trans; [|apply Q4]. eapply same0_trans; [|apply P4]. unfold h0. apply same0_hset, same0_off.
    + intros x X. assert (X1 : x <> j) by (intros ->; apply X; left; reflexivity).
      rewrite Q5.
      * rewrite P5; [unfold h0; apply hset_ne; exact X1|].
        intros [Y|Y]; [congruence|]. apply X. right. apply in_or_app. right. exact Y.
      * intros Y. apply in_app_or in Y. apply X. destruct Y as [Y|Y].
        { right. apply in_or_app. left. exact Y. }
        apply (Permutation_in _ P1) in Y. destruct Y as [Y|Y]; [congruence|]. right. apply in_or_app. right. exact Y.
    + intros L _. destruct js as [|k js]; [|apply Q6; [exact L1|discriminate]].
      rewrite I0 by reflexivity. cbn [fst snd]. apply P7. left. exact L.
    + intros x X H. apply Q7; [exact X|]. destruct (Nat.eq_dec x j) as [->|Y]; [rewrite P6; discriminate|].
      destruct (P3 x Y) as (_ & _ & _ & _ & O & _). rewrite O. unfold h0. rewrite hset_ne by exact Y. exact H.
Qed.

Lemma disjoint_same h h' l : (forall j, In j l -> same (h j) (h' j)) -> disjoint h l -> disjoint h' l.
Proof.
  intros E D i j Hi Hj IJ. apply (apart_same (h i) (h j)); [apply E; exact Hi|apply E; exact Hj|]. apply D; assumption.
Qed.
Lemma autos_dis start js : forall h l, NoDup (js ++ l) -> StronglySorted (le_off h) l -> (forall j, 0 < c_len (h j)) ->
  disjoint h l -> autos_fit start js h l ->
  disjoint (fst (fold_left (auto_step start) js (h, l))) (snd (fold_left (auto_step start) js (h, l))).
Proof.
  induction js as [|j js IH]; intros h l N S1 LP D Fi; [exact D|]. cbn [fold_left].
  inversion N as [|x y Hj N']; subst.
  assert (Hjl : ~ In j l) by (intros X; apply Hj; apply in_or_app; right; exact X).
  pose proof (nodup_app_r _ _ N') as Nl.
  set (h0 := hset j (c_set_off None (h j)) h) in *.
  pose proof (register_auto_placed start j h0 l Nl Hjl) as PL.
  destruct Fi as [Fi Fr]. fold h0 in Fi, Fr.
  change (auto_step start (h, l) j) with (register_auto start j (h0, l)).
  assert (E0 : forall k, In k l -> same (h k) (h0 k)).
  { intros k K. unfold h0. rewrite hset_ne; [apply same_refl|intros ->; contradiction]. }
  assert (L0 : forall k, 0 < c_len (h0 k)).
  { intros k. rewrite (same0_len (h k)); [apply LP|]. unfold h0. apply same0_hset, same0_off. }
  assert (D1 : disjoint (fst (register_auto start j (h0, l))) (snd (register_auto start j (h0, l)))).
  { eapply placed_dis; [exact PL|exact Hjl|exact Nl| |exact L0| |exact Fi].
    - apply (sorted_off h); [intros k K; apply same_off, E0, K|exact S1].
    - apply (disjoint_same h); [exact E0|exact D]. }
  destruct PL as [P1 P2 P3 P4 P5 P6 P7].
  destruct (register_auto start j (h0, l)) as [h1 l1] eqn:E. cbn [fst snd] in *.
  apply IH; [|exact P2| |exact D1|exact Fr].
  - eapply Permutation_NoDup; [|exact N]. rewrite P1. rewrite <- Permutation_middle. reflexivity.
  - intros k. rewrite (same0_len _ _ (P4 k)). apply L0.
Qed.

(** ** [register] *)
Definition explicit (c : cap) : bool := match c_off c with Some o => negb (o =? 0) | None => false end.
Lemma remove_all_in js : forall l x, NoDup l -> In x (fold_left (fun l j => remove1 j l) js l) <-> In x l /\ ~ In x js.
Proof.
  induction js as [|j js IH]; intros l x N; [cbn; tauto|]. cbn [fold_left]. rewrite IH by (apply remove1_nodup; exact N).
  rewrite remove1_in by exact N. cbn. intuition congruence.
Qed.
Lemma remove_all_nodup js : forall l, NoDup l -> NoDup (fold_left (fun l j => remove1 j l) js l).
Proof. induction js as [|j js IH]; intros l N; [exact N|]. cbn. apply IH, remove1_nodup, N. Qed.
Lemma nodup_perm {A} (a b : list A) : NoDup a -> NoDup b -> (forall x, In x a <-> In x b) -> Permutation a b.
Proof. intros. apply NoDup_Permutation; assumption. Qed.
Lemma nodup_app {A} (a b : list A) : NoDup a -> NoDup b -> (forall x, In x a -> ~ In x b) -> NoDup (a ++ b).
Proof.
  induction a as [|x a IH]; intros Na Nb H; [exact Nb|]. inversion Na; subst. cbn. constructor.
  - intros X. apply in_app_or in X. destruct X as [X|X]; [contradiction|]. apply (H x); [left; reflexivity|exact X].
  - apply IH; [assumption|exact Nb|]. intros y Y. apply H. right. exact Y.
Qed.

Definition set_req (o : option Z) (i : nat) (h : heap) : heap :=
  match o with Some _ => hset i (c_set_off o (h i)) h | None => h end.
Record registered_ok (start : Z) (i : nat) (o : option Z) (h : heap) (l : list nat) (h' : heap) (l' : list nat) : Prop := {
  r_perm : Permutation l' (i :: remove1 i l);
  r_sorted : StronglySorted (le_off h') l';
  r_same0 : forall j, same0 (h j) (h' j);
  r_out : forall j, ~ In j (i :: l) -> h' j = h j;
  r_chain : remove1 i l <> [] \/ c_next (h i) = 0 -> chained h' l';
  r_explicit : explicit (set_req o i h i) = true -> c_off (h' i) = c_off (set_req o i h i);
  r_auto : explicit (set_req o i h i) = false ->
           c_off (h' i) = Some (auto_off h (c_len (h i)) (remove1 i l) start);
  r_keep : forall j, In j (remove1 i l) -> explicit (set_req o i h i) = false \/ overlaps (set_req o i h i) (h j) = false ->
           same (h j) (h' j);
  r_some : forall j, In j l' -> c_off (h j) <> None \/ j = i -> c_off (h' j) <> None;
  r_dis : (forall j, 0 < c_len (h j)) -> StronglySorted (le_off h) l -> disjoint h l -> register_fits start i o h l -> disjoint h' l' }.
Lemma disjoint_sub h l l' : (forall x, In x l' -> In x l) -> disjoint h l -> disjoint h l'.
Proof. intros H D i j Hi Hj. apply D; auto. Qed.

Lemma register_ok start i o h l : NoDup l ->
  registered_ok start i o h l (fst (register start i o h l)) (snd (register start i o h l)).
Proof.
  intros N. set (l0 := remove1 i l). set (h0 := set_req o i h).
  assert (N0 : NoDup l0) by (apply remove1_nodup; exact N).
  assert (H0 : ~ In i l0) by (unfold l0; rewrite remove1_in by exact N; tauto).
  assert (E0 : forall j, j <> i -> h0 j = h j).
  { intros j J. unfold h0, set_req. destruct o; [apply hset_ne; exact J|reflexivity]. }
  assert (S0 : forall j, same0 (h j) (h0 j)).
  { intros j. unfold h0, set_req. destruct o; [apply same0_hset, same0_off|apply same0_refl]. }
  assert (NX : c_next (h0 i) = c_next (h i)).
  { unfold h0, set_req. destruct o; [rewrite hset_eq|]; reflexivity. }
  assert (I0 : forall j, In j l0 -> j <> i) by (intros j J ->; contradiction).
  assert (L0 : forall j, In j l0 -> In j l) by (intros j J; apply remove1_in in J; [tauto|exact N]).
  change (register start i o h l) with
    (if explicit (h0 i) then
       let bump := filter (fun j => overlaps (h0 i) (h0 j)) l0 in
       fold_left (auto_step start) bump (build (fold_left (fun l j => remove1 j l) bump l0 ++ [i]) h0)
     else register_auto start i (h0, l0)).
  assert (RF : register_fits start i o h l =
    if explicit (h0 i) then
      let bump := filter (fun j => overlaps (h0 i) (h0 j)) l0 in
      let (h, l) := build (fold_left (fun l j => remove1 j l) bump l0 ++ [i]) h0 in
      autos_fit start bump h l
    else fits start i h0 l0) by reflexivity.
  destruct (explicit (h0 i)) eqn:X.
  - set (bump := filter (fun j => overlaps (h0 i) (h0 j)) l0) in *. cbv zeta in *.
    set (l1 := fold_left (fun l j => remove1 j l) bump l0) in *.
    assert (B : forall j, In j bump -> In j l0) by (intros j J; apply filter_In in J; tauto).
    assert (M1 : forall j, In j l1 <-> In j l0 /\ ~ In j bump) by (intros j; apply remove_all_in; exact N0).
    assert (N1 : NoDup (l1 ++ [i])).
    { apply nodup_app; [apply remove_all_nodup; exact N0|repeat constructor; auto|].
      intros x Hx [<-|[]]. apply M1 in Hx. tauto. }
    destruct (build_built h0 (l1 ++ [i]) N1) as [B1 B2 B3 B4 B5].
    destruct (build (l1 ++ [i]) h0) as [h1 l2] eqn:EB. cbn [fst snd] in *.
    assert (M2 : forall x, In x l2 <-> x = i \/ In x l1).
    { intros x. split; intros Y.
      - apply (Permutation_in _ B1) in Y. apply in_app_or in Y. destruct Y as [Y|[<-|[]]]; auto.
      - apply (Permutation_in _ (Permutation_sym B1)). apply in_or_app. destruct Y as [->|Y]; [right; left; reflexivity|auto]. }
    assert (N2 : NoDup (bump ++ l2)).
    { apply nodup_app; [apply NoDup_filter; exact N0|eapply Permutation_NoDup; [symmetry; exact B1|exact N1]|].
      intros x Y Z0. apply M2 in Z0. destruct Z0 as [->|Z0]; [apply H0, B, Y|]. apply M1 in Z0. tauto. }
    destruct (autos_placed start bump h1 l2 N2 B2) as (A0 & [A1 A2 A3 A4 A5 A6 A7]).
    assert (MEM : forall x, In x (bump ++ l2) <-> x = i \/ In x l0).
    { intros x. rewrite in_app_iff, M2, M1. destruct (in_dec Nat.eq_dec x bump) as [Y|Y]; [|tauto].
      pose proof (B x Y). tauto. }
    assert (P : Permutation (bump ++ l2) (i :: l0)).
    { apply nodup_perm; [exact N2|constructor; assumption|]. intros x. rewrite MEM. cbn. split; (intros [Y|Y]; [left; congruence|right; exact Y]). }
    constructor.
    + rewrite A1. exact P.
    + exact A2.
    + intros j. eapply same0_trans; [apply S0|]. eapply same0_trans; [apply same_same0, B3|apply A4].
    + intros j J. assert (J1 : j <> i) by (intros ->; apply J; left; reflexivity).
      assert (J2 : ~ In j l0) by (intros Y; apply J; right; apply L0; exact Y).
      rewrite A5 by (rewrite MEM; tauto). rewrite B4; [apply E0; exact J1|].
      intros Y. apply (Permutation_in _ (Permutation_sym B1)) in Y. apply M2 in Y. destruct Y as [Y|Y]; [contradiction|].
      apply M1 in Y. tauto.
    + intros C. destruct (list_eq_dec Nat.eq_dec bump []) as [EBp|EBp].
      * rewrite A0 by exact EBp. cbn [fst snd]. apply B5.
        destruct C as [C|C].
        { left. assert (EL : l1 = l0) by (unfold l1; rewrite EBp; reflexivity).
          rewrite EL, app_length. fold l0 in C. destruct l0; [contradiction C; reflexivity|cbn; lia]. }
        destruct l1 as [|k l1']; [|left; rewrite app_length; cbn; lia].
        right. intros x Y. injection Y as <-. rewrite NX. exact C.
      * apply A6; [|exact EBp]. intros ->. apply (proj2 (M2 i)). left. reflexivity.
    + intros _. assert (Hb : ~ In i bump) by (intros Y; apply H0, B, Y).
      destruct (same_trans _ _ _ (B3 i) (A3 i Hb)) as (_ & _ & _ & _ & O & _). exact O.
    + intros Y. unfold h0 in X. congruence.
    + intros j J [Y|Y]; [unfold h0 in X; congruence|].
      assert (Hb : ~ In j bump).
      { intros Z0. apply filter_In in Z0. destruct Z0 as [_ Z0]. rewrite (E0 j (I0 j J)) in Z0. unfold h0 in Z0. congruence. }
      rewrite <- (E0 j (I0 j J)). eapply same_trans; [apply B3|apply A3; exact Hb].
    + intros j J C. apply A7; [exact J|]. destruct (B3 j) as (_ & _ & _ & _ & O & _). rewrite O.
      destruct (Nat.eq_dec j i) as [->|K].
      * clear -X. unfold explicit in X. destruct (c_off (h0 i)); discriminate.
      * rewrite E0 by exact K. tauto.
    + intros LP S1 D RFH. rewrite RF in RFH. apply autos_dis; [exact N2|exact B2| | |exact RFH].
      * intros j. rewrite (same_len _ _ (B3 j)), (same0_len _ _ (S0 j)). apply LP.
      * apply (disjoint_same h0); [intros; apply B3|].
        assert (AP : forall x, In x l1 -> apart (h0 i) (h0 x)).
        { intros x Y. apply M1 in Y. destruct Y as [Y1 Y2].
          destruct (overlaps (h0 i) (h0 x)) eqn:OV.
          - exfalso. apply Y2. apply filter_In. split; assumption.
          - unfold overlaps in OV. unfold apart. lia. }
        intros a b Ha Hb AB. apply M2 in Ha, Hb.
        destruct Ha as [->|Ha], Hb as [->|Hb]; [contradiction|apply AP; exact Hb|apply apart_sym, AP; exact Ha|].
        apply M1 in Ha, Hb. rewrite (E0 a), (E0 b) by (apply I0; tauto). apply D; [apply L0; tauto|apply L0; tauto|exact AB].
  - destruct (register_auto_placed start i h0 l0 N0 H0) as [P1 P2 P3 P4 P5 P6 P7].
    assert (AO : auto_off h0 (c_len (h0 i)) l0 start = auto_off h (c_len (h i)) l0 start).
    { rewrite (same0_len _ _ (S0 i)). clear -E0 I0. unfold auto_off. generalize start.
      induction l0 as [|k l0 IH]; intros s; [reflexivity|]. cbn. rewrite (E0 k) by (apply I0; left; reflexivity).
      apply IH. intros j J. apply I0. right. exact J. }
    constructor.
    + exact P1.
    + exact P2.
    + intros j. eapply same0_trans; [apply S0|apply P4].
    + intros j J. rewrite P5; [apply E0; intros ->; apply J; left; reflexivity|].
      intros [Y|Y]; [apply J; left; exact Y|apply J; right; apply L0; exact Y].
    + intros C. apply P7. rewrite NX. exact C.
    + intros Y. unfold h0 in X. congruence.
    + intros _. rewrite P6, AO. reflexivity.
    + intros j J _. rewrite <- (E0 j (I0 j J)). apply P3. apply I0. exact J.
    + intros j J C. destruct (Nat.eq_dec j i) as [->|K]; [rewrite P6; discriminate|].
      destruct (P3 j K) as (_ & _ & _ & _ & O & _). rewrite O, E0 by exact K. tauto.
    + intros LP S1 D RFH. rewrite RF in RFH.
      eapply placed_dis; [constructor; eassumption|exact H0|exact N0| | | |exact RFH].
      * apply (sorted_off h); [intros j J; rewrite E0 by (apply I0; exact J); reflexivity|apply remove1_sorted; exact S1].
      * intros j. rewrite (same0_len _ _ (S0 j)). apply LP.
      * apply (disjoint_same h); [intros j J; rewrite E0 by (apply I0; exact J); apply same_refl|].
        apply (disjoint_sub h l); [exact L0|exact D].
Qed.
