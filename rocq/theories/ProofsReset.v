(** Proofs about the reset outputs. *)
From Verif Require Import Base BaseProofs ModelReset SpecReset.

Definition rinv (m : machine) : Prop :=
  match m_st m with
  | RClk1 | RClk2 => True
  | RRise => m_in m = false /\ m_out m = true
  | RTimer _ => m_in m = true /\ m_out m = true
  | REdge => m_out m = true
  | RRun => m_in m = true /\ m_out m = false
  end.
Lemma rinv_step : forall m e, rinv m -> rinv (rstep m e).
Proof.
  intros [st i o] e H. unfold rinv in *; cbn in *.
  destruct e; destruct st; destruct i; cbn in *; try tauto; try (destruct H; discriminate).
  all: destruct (_ <=? _); cbn; tauto.
Qed.
Lemma rinv_run : forall es m, rinv m -> rinv (rrun m es).
Proof. induction es as [|e es IH]; intros m H; [exact H|]. cbn. apply IH, rinv_step, H. Qed.
Lemma rinv_new : forall i es, rinv (rrun (m_new i) es).
Proof. intros. apply rinv_run. exact I. Qed.

(** Released only at a clock edge with the input high *)
Lemma release_step : forall m e, m_out m = true -> m_out (rstep m e) = false -> e = Clk /\ m_in m = true /\ m_st m = REdge.
Proof.
  intros [st i o] e H H'. cbn in *. subst o.
  destruct e; destruct st; destruct i; cbn in H'; try discriminate; auto.
Qed.
(** Asserted only at a clock edge *)
Lemma assert_step : forall m e, m_out m = false -> m_out (rstep m e) = true -> e = Clk /\ m_st m = RClk2.
Proof.
  intros [st i o] e H H'. cbn in *. subst o.
  destruct e; destruct st; destruct i; cbn in H'; try discriminate; auto.
Qed.

Lemma run_app : forall a b m, rrun m (a ++ b) = rrun (rrun m a) b.
Proof. intros. unfold rrun. apply fold_left_app. Qed.
Lemma clocks_cons : forall e es, clocks (e :: es) = (match e with Clk => 1 | _ => 0 end) + clocks es.
Proof. intros. unfold clocks. cbn [filter]. destruct e; cbn [app]; rewrite ?zlen_cons; lia. Qed.
Lemma clocks_nn : forall es, 0 <= clocks es.
Proof. intros. unfold clocks, zlen. lia. Qed.
Lemma clocks_nil : clocks [] = 0. Proof. reflexivity. Qed.

(** Low: asserted after two clock edges *)
Lemma low_held : forall es m, rinv m -> m_in m = false -> ~ In Rise es ->
  (m_out m = true \/ (m_st m = RClk1 /\ 2 <= clocks es) \/ (m_st m = RClk2 /\ 1 <= clocks es)) -> m_out (rrun m es) = true.
Proof.
  induction es as [|e es IH]; intros m I L N H.
  - rewrite clocks_nil in H. cbn. destruct H as [H|[[_ H]|[_ H]]]; [exact H| lia | lia].
  - change (rrun m (e :: es)) with (rrun (rstep m e) es).
    assert (N' : ~ In Rise es) by (intro; apply N; right; assumption).
    assert (NE : e <> Rise) by (intros ->; apply N; left; reflexivity).
    rewrite clocks_cons in H.
    apply IH; [apply rinv_step, I | | exact N' | ].
    + destruct m as [st i o]; cbn in *; subst i. destruct e; destruct st; cbn; congruence.
    + destruct m as [st i o]; unfold rinv in I; cbn in *; subst i.
      destruct e; destruct st; cbn; try congruence; try (destruct I; discriminate); try tauto.
      all: destruct H as [H|[[H1 H2]|[H1 H2]]]; try discriminate; try (left; exact H); right; try (left; split; [reflexivity|lia]); right; split; [reflexivity|lia].
Qed.

(** The second clock edge asserts, whatever the input does *)
Lemma second_clock : forall a b m, m_st m = RClk1 -> clocks a = 0 -> clocks b = 0 -> m_out (rrun m (a ++ Clk :: b ++ [Clk])) = true.
Proof.
  assert (Q : forall es m st, (st = RClk1 \/ st = RClk2) -> m_st m = st -> clocks es = 0 -> m_st (rrun m es) = st).
  { induction es as [|e es IH]; intros m st S E C; [exact E|].
    rewrite clocks_cons in C. pose proof (clocks_nn es).
    change (rrun m (e :: es)) with (rrun (rstep m e) es). apply IH; [exact S| |destruct e; lia].
    destruct m as [s i o]; cbn in *; subst s. destruct e; [lia| | |]; destruct S; subst st; destruct i; reflexivity. }
  intros a b m E A B.
  rewrite run_app. change (rrun (rrun m a) (Clk :: b ++ [Clk])) with (rrun (rstep (rrun m a) Clk) (b ++ [Clk])). rewrite run_app.
  pose proof (Q a m RClk1 (or_introl eq_refl) E A) as QA.
  set (m1 := rrun m a) in *.
  assert (E2 : m_st (rstep m1 Clk) = RClk2) by (destruct m1; cbn in *; subst; reflexivity).
  pose proof (Q b _ RClk2 (or_intror eq_refl) E2 B) as QB.
  set (m2 := rrun (rstep m1 Clk) b) in *. destruct m2; cbn in *; subst; reflexivity.
Qed.
Lemma running : forall m, rinv m -> m_out m = false -> m_in m = true -> m_st (rstep m Fall) = RClk1 \/ m_st m = RClk2.
Proof. intros [st i o] I O E; unfold rinv in I; cbn in *; subst. destruct st; cbn; auto; destruct I; discriminate. Qed.
Lemma one_clock : forall a m, m_st m = RClk2 -> clocks a = 0 -> m_out (rrun m (a ++ [Clk])) = true.
Proof.
  induction a as [|e es IH]; intros m E C.
  - destruct m; cbn in *; subst; reflexivity.
  - rewrite clocks_cons in C. pose proof (clocks_nn es). change (rrun m ((e :: es) ++ [Clk])) with (rrun (rstep m e) (es ++ [Clk])). apply IH; [|destruct e; lia].
    destruct m as [s i o]; cbn in *; subst s. destruct e; [lia| | |]; destruct i; reflexivity.
Qed.

(** High: released *)
Definition prog (m : machine) (c t : Z) : Prop :=
  match m_st m with
  | RClk1 => 2 <= c /\ 100 <= t | RClk2 => 1 <= c /\ 100 <= t | RRise => False | RTimer k => k <= t | _ => True end.
Lemma high_one : forall es m, rinv m -> m_in m = true -> ~ In Fall es ->
  m_in (rrun m es) = true /\ (m_st m = REdge \/ m_st m = RRun -> m_st (rrun m es) = REdge \/ m_st (rrun m es) = RRun).
Proof.
  induction es as [|e es IH]; intros m I L N; [auto|].
  assert (N' : ~ In Fall es) by (intro; apply N; right; assumption).
  assert (NE : e <> Fall) by (intros ->; apply N; left; reflexivity).
  change (rrun m (e :: es)) with (rrun (rstep m e) es).
  assert (L' : m_in (rstep m e) = true) by (destruct m as [st i o]; cbn in *; subst i; destruct e; destruct st; cbn; congruence).
  destruct (IH (rstep m e) (rinv_step _ _ I) L' N') as [A B]. split; [exact A|].
  intro S. apply B. destruct m as [st i o]; cbn in *; subst i. destruct S; subst st; destruct e; cbn; auto; congruence.
Qed.
Lemma high_clocks : forall es m, rinv m -> m_in m = true -> ~ In Fall es ->
  (m_st m = RClk1 -> 2 <= clocks es) -> (m_st m = RClk2 -> 1 <= clocks es) ->
  (forall k, m_st m = RTimer k -> k <= 100) -> forwards es ->
  match m_st (rrun m es) with RTimer k => k <= 100 | REdge | RRun => True | _ => False end.
Proof.
  induction es as [|e es IH]; intros m I L N C1 C2 T F.
  - change (rrun m []) with m. rewrite clocks_nil in *. unfold rinv in I.
    destruct (m_st m) as [| | |k| |] eqn:E; try exact Logic.I.
    + specialize (C1 eq_refl). lia.
    + specialize (C2 eq_refl). lia.
    + destruct I. congruence.
    + apply T. reflexivity.
  - assert (N' : ~ In Fall es) by (intro; apply N; right; assumption).
    assert (NE : e <> Fall) by (intros ->; apply N; left; reflexivity).
    assert (F' : forwards es) by (intros n Hn; apply F; right; exact Hn).
    change (rrun m (e :: es)) with (rrun (rstep m e) es). rewrite clocks_cons in *. pose proof (clocks_nn es).
    apply IH; [apply rinv_step, I | | exact N' | | | | exact F'].
    + destruct m as [st i o]; cbn in *; subst i; destruct e; destruct st; cbn; congruence.
    + destruct m as [st i o]; unfold rinv in I; cbn in *; subst i. destruct e; destruct st; cbn; try discriminate; try congruence; try (intros _; specialize (C1 eq_refl); lia).
      intro Z'. destruct (_ <=? _); discriminate.
    + destruct m as [st i o]; unfold rinv in I; cbn in *; subst i. destruct e; destruct st; cbn; try discriminate; try congruence; try (intros _; first [specialize (C1 eq_refl); lia | specialize (C2 eq_refl); lia]).
      intro Z'. destruct (_ <=? _); discriminate.
    + destruct m as [st i o]; unfold rinv in I; cbn in *; subst i. destruct e; destruct st; cbn; intros k K; try discriminate; try congruence; try (injection K as <-; lia); try (apply T; exact K).
      specialize (T _ eq_refl). pose proof (F n (or_introl eq_refl)). destruct (_ <=? _) eqn:?; [discriminate|]. injection K as <-. lia.
Qed.
Lemma high_time : forall es m, m_in m = true -> ~ In Fall es -> forwards es ->
  (match m_st m with RTimer k => k <= time es /\ 0 < k | REdge | RRun => True | _ => False end) ->
  match m_st (rrun m es) with REdge | RRun => True | _ => False end.
Proof.
  induction es as [|e es IH]; intros m L N F T.
  - change (rrun m []) with m. change (time []) with 0 in T. destruct (m_st m); try exact T. lia.
  - assert (N' : ~ In Fall es) by (intro; apply N; right; assumption).
    assert (NE : e <> Fall) by (intros ->; apply N; left; reflexivity).
    assert (F' : forwards es) by (intros n Hn; apply F; right; exact Hn).
    change (rrun m (e :: es)) with (rrun (rstep m e) es).
    apply IH; [| exact N' | exact F' |].
    + destruct m as [st i o]; cbn in *; subst i; destruct e; destruct st; cbn; congruence.
    + destruct m as [st i o]; cbn in *; subst i; destruct e; destruct st; cbn in *; try tauto; try congruence.
      destruct (left <=? n) eqn:?; [exact Logic.I|]. unfold time in *. cbn in T. lia.
Qed.
Lemma timer_pos : forall es m, (match m_st m with RTimer k => 0 < k | _ => True end) -> match m_st (rrun m es) with RTimer k => 0 < k | _ => True end.
Proof.
  induction es as [|e es IH]; intros m H; [exact H|].
  change (rrun m (e :: es)) with (rrun (rstep m e) es). apply IH.
  destruct m as [st i o]; cbn in *; destruct e; destruct st; destruct i; cbn in *; try exact Logic.I; try lia; destruct (_ <=? _) eqn:?; cbn; try exact Logic.I; lia.
Qed.
Lemma timer_le : forall es m, forwards es -> (match m_st m with RTimer k => k <= 100 | _ => True end) -> match m_st (rrun m es) with RTimer k => k <= 100 | _ => True end.
Proof.
  induction es as [|e es IH]; intros m F H; [exact H|].
  assert (F' : forwards es) by (intros n Hn; apply F; right; exact Hn).
  change (rrun m (e :: es)) with (rrun (rstep m e) es). apply IH; [exact F'|].
  destruct m as [st i o]; cbn in *; destruct e; destruct st; destruct i; cbn in *; try exact Logic.I; try lia; pose proof (F n (or_introl eq_refl)); destruct (_ <=? _) eqn:?; cbn; try exact Logic.I; lia.
Qed.
Theorem released : forall i es0 es1 es2, forwards es0 -> forwards es1 -> forwards es2 ->
  m_in (rrun (m_new i) es0) = true -> ~ In Fall es1 -> ~ In Fall es2 -> 2 <= clocks es1 -> 100 <= time es2 ->
  m_out (rrun (m_new i) (es0 ++ es1 ++ es2 ++ [Clk])) = false.
Proof.
  intros i es0 es1 es2 F0 F1 F2 H N1 N2 C T.
  rewrite !run_app. set (m := rrun (m_new i) es0) in *.
  assert (I : rinv m) by (apply rinv_new).
  pose proof (timer_le es0 (m_new i) F0 Logic.I) as TL. fold m in TL.
  assert (H1 : match m_st (rrun m es1) with RTimer k => k <= 100 | REdge | RRun => True | _ => False end).
  { apply high_clocks; auto; try lia. intros k K. rewrite K in TL. exact TL. }
  pose proof (timer_pos es0 (m_new i) Logic.I) as TP. fold m in TP.
  pose proof (timer_pos es1 m TP) as TP1.
  destruct (high_one es1 m I H N1) as [L1 _].
  pose proof (rinv_run es1 m I) as I1. set (m1 := rrun m es1) in *.
  assert (H2 : match m_st (rrun m1 es2) with REdge | RRun => True | _ => False end).
  { apply high_time; auto. destruct (m_st m1); try exact H1. lia. }
  destruct (high_one es2 m1 I1 L1 N2) as [L2 _].
  pose proof (rinv_run es2 m1 I1) as I2. set (m2 := rrun m1 es2) in *.
  destruct m2 as [st i2 o]; unfold rinv in I2; cbn in *; subst i2. destruct st; try tauto; reflexivity.
Qed.
Lemma stays : forall es m, rinv m -> m_in m = true -> m_st m = RRun -> ~ In Fall es -> rrun m es = m.
Proof.
  induction es as [|e es IH]; intros m I L S N; [reflexivity|].
  assert (N' : ~ In Fall es) by (intro; apply N; right; assumption).
  assert (NE : e <> Fall) by (intros ->; apply N; left; reflexivity).
  change (rrun m (e :: es)) with (rrun (rstep m e) es).
  assert (E : rstep m e = m) by (destruct m as [st i o]; cbn in *; subst; destruct e; cbn; congruence).
  rewrite E. apply IH; assumption.
Qed.

(** How long the input has been high *)
Lemma in_high : forall es m x, m_in m = fst x -> m_in (rrun m es) = fst (fold_left high_step es x).
Proof.
  induction es as [|e es IH]; intros m x H; [exact H|].
  change (rrun m (e :: es)) with (rrun (rstep m e) es). cbn [fold_left]. apply IH.
  destruct m as [st i o], x as [j t]; cbn in *; subst. destruct e; destruct st; destruct j; cbn; try reflexivity; destruct (_ <=? _); reflexivity.
Qed.
Definition hinv (m : machine) (x : bool * Z) (p : option (bool * bool)) : Prop :=
  m_in m = fst x /\ 0 <= snd x /\
  match p with
  | None => True
  | Some (i, c) => i = m_in m /\
     match m_st m with
     | RTimer k => 100 - k <= snd x /\ m_in m = true
     | REdge => if m_in m then 100 <= snd x else c = false
     | _ => True
     end
  end.
Local Arguments Z.sub : simpl never.
Local Arguments Z.add : simpl never.
Lemma hinv_step : forall m x p e, (forall n, e = Pass n -> 0 <= n) -> (match m_st m with RTimer k => k <= 100 | _ => True end) ->
  hinv m x p -> hinv (rstep m e) (high_step x e) (pulse_step p e).
Proof.
  intros [st i o] [j t] p e F K [A [B C]]; unfold hinv; cbn in A, B, C, K |- *; subst j.
  assert (F' : match e with Pass n => 0 <= n | _ => True end) by (destruct e; auto).
  destruct p as [[pi c]|].
  - destruct C as [-> C].
    destruct e; destruct st; destruct i; cbn in *; repeat match goal with |- context [if ?b then _ else _] => destruct b eqn:?; cbn in * end; subst; cbn in *; try discriminate;
    repeat split; try lia; try tauto; try congruence.
    all: try (exfalso; destruct C; discriminate).
  - destruct e; destruct st; destruct i; cbn in *; repeat match goal with |- context [if ?b then _ else _] => destruct b eqn:?; cbn in * end; repeat split; try lia; auto.
Qed.
Lemma hinv_run : forall es m x p, forwards es -> (match m_st m with RTimer k => k <= 100 | _ => True end) -> hinv m x p ->
  hinv (rrun m es) (fold_left high_step es x) (fold_left pulse_step es p).
Proof.
  induction es as [|e es IH]; intros m x p F K H; [exact H|].
  change (rrun m (e :: es)) with (rrun (rstep m e) es). cbn [fold_left].
  assert (F' : forwards es) by (intros n Hn; apply F; right; exact Hn).
  apply IH; [exact F'| |].
  - exact (timer_le [e] m (fun n Hn => F n (match Hn with or_introl q => or_introl q | or_intror q => False_ind _ q end)) K).
  - apply hinv_step; [intros n ->; apply F; left; reflexivity|exact K|exact H].
Qed.
Theorem reset_length : forall i es e, forwards es -> long_pulses i es ->
  m_out (rrun (m_new i) es) = true -> m_out (rrun (m_new i) (es ++ [e])) = false -> 100 <= high_for i es.
Proof.
  intros i es e F P H R. rewrite run_app in R. cbn in R. change (fold_left rstep [e] ?m) with (rstep m e) in R.
  destruct (release_step _ _ H R) as [_ [Hi Hs]].
  destruct (hinv_run es (m_new i) (i, 0) (Some (i, true)) F Logic.I) as [_ [_ C]].
  { unfold hinv; cbn. repeat split. lia. }
  unfold long_pulses in P. destruct (fold_left pulse_step es (Some (i, true))) as [[pi c]|]; [|congruence].
  destruct C as [_ C]. rewrite Hs, Hi in C. exact C.
Qed.

Theorem released_run : forall i es0 es1 es2 es3, forwards es0 -> forwards es1 -> forwards es2 ->
  m_in (rrun (m_new i) es0) = true -> ~ In Fall es1 -> ~ In Fall es2 -> ~ In Fall es3 -> 2 <= clocks es1 -> 100 <= time es2 ->
  m_out (rrun (m_new i) (es0 ++ es1 ++ es2 ++ Clk :: es3)) = false.
Proof.
  intros i es0 es1 es2 es3 F0 F1 F2 H N1 N2 N3 C T.
  replace (es0 ++ es1 ++ es2 ++ Clk :: es3) with ((es0 ++ es1 ++ es2 ++ [Clk]) ++ es3) by (rewrite <- !app_assoc; reflexivity).
  rewrite run_app.
  assert (R : m_out (rrun (m_new i) (es0 ++ es1 ++ es2 ++ [Clk])) = false) by (apply released; assumption).
  assert (S : m_st (rrun (m_new i) (es0 ++ es1 ++ es2 ++ [Clk])) = RRun).
  { revert R. rewrite !run_app. set (m := rrun (m_new i) es0) in *.
    assert (I : rinv m) by (apply rinv_new).
    pose proof (timer_le es0 (m_new i) F0 Logic.I) as TL. fold m in TL.
    pose proof (timer_pos es0 (m_new i) Logic.I) as TP. fold m in TP.
    assert (H1 : match m_st (rrun m es1) with RTimer k => k <= 100 | REdge | RRun => True | _ => False end).
    { apply high_clocks; auto; try lia. intros k K. rewrite K in TL. exact TL. }
    pose proof (timer_pos es1 m TP) as TP1.
    destruct (high_one es1 m I H N1) as [L1 _].
    pose proof (rinv_run es1 m I) as I1. set (m1 := rrun m es1) in *.
    assert (H2 : match m_st (rrun m1 es2) with REdge | RRun => True | _ => False end).
    { apply high_time; auto. destruct (m_st m1); try exact H1. lia. }
    destruct (high_one es2 m1 I1 L1 N2) as [L2 _].
    set (m2 := rrun m1 es2) in *. intros _. destruct m2 as [st i2 o]; cbn in *; subst i2. destruct st; try tauto; reflexivity. }
  pose proof (rinv_new i (es0 ++ es1 ++ es2 ++ [Clk])) as I.
  set (m := rrun (m_new i) (es0 ++ es1 ++ es2 ++ [Clk])) in *.
  rewrite stays; auto. unfold rinv in I. rewrite S in I. tauto.
Qed.
Theorem falls : forall i es0 a b, m_out (rrun (m_new i) es0) = false -> m_in (rrun (m_new i) es0) = true -> clocks a = 0 -> clocks b = 0 ->
  m_out (rrun (m_new i) (es0 ++ Fall :: a ++ [Clk])) = true \/ m_out (rrun (m_new i) (es0 ++ Fall :: a ++ Clk :: b ++ [Clk])) = true.
Proof.
  intros i es0 a b O H A B. pose proof (rinv_new i es0) as I. rewrite !run_app.
  change (rrun ?m (Fall :: ?l)) with (rrun (rstep m Fall) l).
  destruct (running _ I O H) as [S|S].
  - right. apply second_clock; assumption.
  - left. apply one_clock; [|assumption]. destruct (rrun (m_new i) es0) as [st j o]; cbn in *; subst. reflexivity.
Qed.
Theorem low_all : forall i es0 es, m_in (rrun (m_new i) es0) = false -> ~ In Rise es -> 2 <= clocks es -> m_out (rrun (m_new i) (es0 ++ es)) = true.
Proof.
  intros i es0 es L N C. rewrite run_app. pose proof (rinv_new i es0) as I. apply low_held; auto.
  unfold rinv in I. destruct (m_st (rrun (m_new i) es0)); auto; try (right; left; split; [reflexivity|lia]); try (right; right; split; [reflexivity|lia]); try tauto.
  destruct I; congruence.
Qed.
Theorem release_at : forall i es e, m_out (rrun (m_new i) es) = true -> m_out (rrun (m_new i) (es ++ [e])) = false -> e = Clk /\ m_in (rrun (m_new i) es) = true.
Proof. intros i es e H R. rewrite run_app in R. change (rrun ?m [e]) with (rstep m e) in R. destruct (release_step _ _ H R) as [A [B _]]. auto. Qed.
Theorem assert_at : forall i es e, m_out (rrun (m_new i) es) = false -> m_out (rrun (m_new i) (es ++ [e])) = true -> e = Clk.
Proof. intros i es e H R. rewrite run_app in R. change (rrun ?m [e]) with (rstep m e) in R. destruct (assert_step _ _ H R) as [A _]. exact A. Qed.
Theorem input_is : forall i es, m_in (rrun (m_new i) es) = fst (fold_left high_step es (i, 0)).
Proof. intros. apply in_high. reflexivity. Qed.

Lemma ctrl_fst : forall es x, fst (fold_left ctrl_step es x) = rrun (fst x) (map fst es).
Proof. induction es as [|[e v] es IH]; intros [m c]; [reflexivity|]. cbn [fold_left map]. rewrite IH. reflexivity. Qed.
Lemma ctrl_same : forall es x, clocks (map fst es) = 0 -> snd (fold_left ctrl_step es x) = snd x.
Proof.
  induction es as [|[e v] es IH]; intros [m c] C; [reflexivity|]. cbn [fold_left map fst] in *. rewrite clocks_cons in C. pose proof (clocks_nn (map fst es)).
  rewrite IH by (destruct e; lia). destruct e; [lia|reflexivity..].
Qed.
Theorem ctrl_last : forall i k a v b, clocks (map fst b) = 0 ->
  snd (ctrl_run i k (a ++ (Clk, v) :: b)) = (m_in (rrun (m_new i) (map fst a)) && match v with Some x => x | None => true end)%bool.
Proof.
  intros i k a v b C. unfold ctrl_run. rewrite fold_left_app. cbn [fold_left]. rewrite ctrl_same by exact C.
  pose proof (ctrl_fst a (ctrl_new i k)) as F. destruct (fold_left ctrl_step a (ctrl_new i k)) as [m c]. cbn [fst snd ctrl_step ctrl_new] in *. rewrite <- F.
  destruct (m_in m); reflexivity.
Qed.
From Verif Require Import ModelUtils ModelTlp ModelAttrs ModelCapList ModelConfig ModelFunction ModelRoute ModelFrames ModelUs ModelUsDev SpecBar SpecRoute SpecUsRoute ProofsUsRoute.
Theorem crs_iff : forall co i k a v b t ty d, fmt_type t = Ok ty -> (ty = CFG_READ_0 \/ ty = CFG_WRITE_0) -> clocks (map fst b) = 0 ->
  let en := snd (ctrl_run i k (a ++ (Clk, v) :: b)) in
  (m_in (rrun (m_new i) (map fst a)) = false \/ v = Some false -> exists c, us_upstream_recv co en t d = Ok (d, VAnswer c) /\ is_answer CRS c t (mkId (d_bus d) 0 0)) /\
  (m_in (rrun (m_new i) (map fst a)) = true -> v <> Some false -> forall d' c, us_upstream_recv co en t d = Ok (d', VAnswer c) -> status c = UR).
Proof.
  intros co i k a v b t ty d T Y C en. unfold en. rewrite ctrl_last by exact C. split.
  - intro H. assert (E : (m_in (rrun (m_new i) (map fst a)) && match v with Some x => x | None => true end)%bool = false).
    { destruct H as [-> | ->]; [reflexivity|apply andb_false_r]. }
    rewrite E. exact (us_disabled co t ty d T Y).
  - intros -> V d' c H. assert (E : (match v with Some x => x | None => true end) = true) by (destruct v as [[|]|]; congruence).
    rewrite E in H. cbn [andb] in H. unfold us_upstream_recv in H. rewrite T in H. cbn [bind] in H. destruct Y as [-> | ->]; cbn [negb] in H.
    all: destruct (set_bus (bus (completer_id t)) d) as [d1|]; [|discriminate H]; cbn [bind] in H.
    all: destruct (by_id 0 (completer_id t) (d_fns d1)); [discriminate H|].
    all: unfold answer_with in H; destruct (tlp_check _) as [ok|]; [|discriminate H]; cbn [bind] in H; destruct (py_assert ok); [|discriminate H]; cbn [bind] in H.
    all: assert (c = create_ur_completion t (mkId (d_bus d1) 0 0)) as -> by congruence; reflexivity.
Qed.
