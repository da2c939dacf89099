(** Idle sources (C72). *)
From Verif Require Import Base BaseProofs ModelIdle SpecIdle.
From Coq Require Import Lia.

Lemma z_sum_app a b : z_sum (a ++ b) = z_sum a + z_sum b.
Proof. induction a as [|x a IH]; cbn [z_sum fold_right app]; [reflexivity|]. fold (z_sum (a ++ b)). fold (z_sum a). rewrite IH. lia. Qed.
Lemma z_sum_nonneg l : Forall (fun x => 1 <= x) l -> 0 <= z_sum l.
Proof. induction 1; cbn [z_sum fold_right]; [lia|]. fold (z_sum l). lia. Qed.
Lemma z_sum_split k l : z_sum (firstn k l) + z_sum (skipn k l) = z_sum l.
Proof. rewrite <- z_sum_app, firstn_skipn. reflexivity. Qed.
Local Arguments z_sum : simpl never.
Lemma z_sum_nil : z_sum [] = 0.
Proof. reflexivity. Qed.
Lemma z_sum_one n : z_sum [n] = n + 0.
Proof. reflexivity. Qed.
(** Holds whatever the schedule is. *)
Record zinv (lat : bool) (s : src) : Prop := {
  zi_q : Forall (fun x => 1 <= x) (z_q s);
  zi_r : 0 <= z_r s;
  zi_d : 0 <= z_d s;
  zi_v : 0 <= z_v s;
  zi_l : 0 <= z_lost s;
  zi_sum : z_sent s = z_taken s + z_lost s + z_v s + z_d s + z_r s + z_sum (z_q s);
  zi_sleep : z_asleep s = true -> z_d s = 0 /\ z_v s = 0;
  zi_rc : lat = true -> z_v s <> 0 -> z_rc s = true }.
Lemma zinv0 lat : zinv lat src0.
Proof. split; cbn; try rewrite z_sum_nil; try lia; try discriminate. constructor. Qed.
Lemma zinv_step us lat e s s' : zinv lat s -> z_step us lat e s = Some s' -> zinv lat s'.
Proof.
  intros [Q R D V L S A C] H. unfold z_step, z_act, z_count in H. cbv zeta in H. destruct e as [n|k b| |rd p rst].
  - destruct (1 <=? n) eqn:N; [|discriminate]. injection H as <-. split; cbn; auto; try lia.
    + apply Forall_app. split; [exact Q|]. constructor; [lia|constructor].
    + rewrite z_sum_app, z_sum_one. lia.
  - destruct ((z_d s =? 0) && (1 <=? b) && (b <=? z_r s + z_sum (firstn k (z_q s)))) eqn:E; [|discriminate]. injection H as <-.
    apply andb_prop in E as [E E3]. apply andb_prop in E as [E1 E2]. pose proof (z_sum_split k (z_q s)) as K.
    split; cbn; try lia; try discriminate; auto.
    apply Forall_forall. intros x X. rewrite Forall_forall in Q. apply Q. rewrite <- (firstn_skipn k). apply in_or_app. right. exact X.
  - injection H as <-. pose proof (z_sum_nonneg _ Q). split; cbn; rewrite ?z_sum_nil; auto; lia.
  - destruct (z_asleep s) eqn:AS.
    + destruct (A eq_refl) as [A1 A2]. destruct rst; [|destruct (if lat then z_rc s else rd)]; injection H as <-; split; cbn; auto; try lia.
    + destruct rst; [injection H as <-; split; cbn; auto; try lia; discriminate|].
      destruct lat; [destruct (z_v s =? 0) eqn:V0; [destruct (z_rc s)|rewrite C in H by lia]|destruct rd, (z_v s =? 0) eqn:V0]; destruct (z_d s =? 0) eqn:D0, p; try destruct rd; cbn [negb andb orb] in H;
      injection H as <-; split; cbn; auto; try lia; try discriminate; try (rewrite andb_false_r; discriminate); try (rewrite AS; discriminate).
Qed.
(** What a step does, but for the counters *)
Lemma step_act us lat e s s' : z_step us lat e s = Some s' -> exists a, z_act us lat e s = Some a /\
  z_q s' = z_q a /\ z_r s' = z_r a /\ z_d s' = z_d a /\ z_v s' = z_v a /\ z_asleep s' = z_asleep a /\ z_active s' = z_active a /\ z_idle s' = z_idle a.
Proof.
  unfold z_step. destruct (z_act us lat e s) as [a|]; [|discriminate]. unfold z_count. intros H. exists a. split; [reflexivity|].
  match type of H with Some (let '(_, _) := ?x in _) = _ => destruct x as [[? ?] ?] end. injection H as <-. cbn. repeat split.
Qed.
Lemma zinv_run us lat es : forall s s', zinv lat s -> z_run us lat es s = Some s' -> zinv lat s'.
Proof.
  induction es as [|e es IH]; intros s s' I H; cbn [z_run] in H; [injection H as <-; exact I|].
  destruct (z_step us lat e s) as [s1|] eqn:E; [|discriminate]. exact (IH _ _ (zinv_step _ _ _ _ _ I E) H).
Qed.
(** Holds if the schedule is tidy. *)
Record tinv (s : src) : Prop := {
  ti_idle : z_idle s = true -> z_q s = [] /\ z_r s = 0 /\ z_d s = 0 /\ z_v s = 0;
  ti_sleep : z_asleep s = true -> z_r s = 0 /\ (z_q s = [] -> z_idle s = true) }.
Lemma tinv0 : tinv src0.
Proof. split; cbn; [auto|discriminate]. Qed.
Lemma tinv_step us lat e s s' : zinv lat s -> tinv s -> match e with ZEdge _ _ _ => settled s | ZClear => z_r s = 0 /\ z_d s = 0 /\ z_v s = 0 | _ => True end -> z_step us lat e s = Some s' -> tinv s'.
Proof.
  intros [Q R D V L S A _] [I W] T K. destruct (step_act _ _ _ _ _ K) as (a & H & F1 & F2 & F3 & F4 & F5 & _ & F7).
  enough (tinv a) as [I' W'] by (split; rewrite ?F1, ?F2, ?F3, ?F4, ?F5, ?F7; assumption).
  clear s' K F1 F2 F3 F4 F5 F7. unfold z_act in H. destruct e as [n|k b| |rd p rst]; cbv zeta in H.
  - destruct (1 <=? n) eqn:N; [|discriminate]. injection H as <-. split; cbn; [discriminate|]. intros X. destruct (W X) as [W1 W2]. split; [exact W1|]. intros Y. destruct (z_q s); discriminate.
  - cbv zeta in H. destruct ((z_d s =? 0) && (1 <=? b) && (b <=? z_r s + z_sum (firstn k (z_q s)))) eqn:E; [|discriminate]. injection H as <-.
    apply andb_prop in E as [E E3]. apply andb_prop in E as [E1 E2]. split; cbn; [|discriminate].
    intros X. destruct (I X) as (Y1 & Y2 & _). rewrite Y1, Y2 in E3. rewrite firstn_nil, z_sum_nil in E3. lia.
  - injection H as <-. destruct T as (T1 & T2 & T3). split; cbn; auto.
  - destruct (z_asleep s) eqn:AS; [injection H as <-; split; auto; rewrite AS; exact W|].
    destruct rst; [injection H as <-; split; cbn; [|discriminate]; intros X; destruct (I X) as (X1 & X2 & X3 & X4); auto|]. cbv zeta in H.
    match type of H with (if ?c then _ else _) = _ => destruct c end; [|injection H as <-; split; auto; rewrite AS; discriminate].
    match type of H with (if ?c then _ else _) = _ => destruct c eqn:C end; injection H as <-; split; cbn; try discriminate.
    + intros X. destruct (I X) as (X1 & X2 & X3 & X4). rewrite X3 in C. discriminate.
    + intros X. apply orb_prop in X as [X|X]; [destruct (I X) as (X1 & X2 & X3 & X4); auto|]. destruct T as [T|[T1 T2]]; [lia|]. repeat split; auto. lia.
    + intros X. apply andb_prop in X as [_ X]. destruct T as [T|[T1 T2]]; [lia|]. split; [exact T1|]. intros _. rewrite X. apply orb_true_r.
Qed.
Lemma tinv_run us lat es : forall s s', zinv lat s -> tinv s -> tidy us lat es s -> z_run us lat es s = Some s' -> tinv s'.
Proof.
  induction es as [|e es IH]; intros s s' Z I T H; cbn [z_run] in H; [injection H as <-; exact I|]. cbn [tidy] in T. destruct T as [T1 T2].
  destruct (z_step us lat e s) as [s1|] eqn:E; [|discriminate]. exact (IH _ _ (zinv_step _ _ _ _ _ Z E) (tinv_step _ _ _ _ _ Z I T1 E) T2 H).
Qed.
Theorem wait_right us lat es s : tidy us lat es src0 -> z_run us lat es src0 = Some s -> z_idle s = true -> all_through s.
Proof.
  intros T H X. pose proof (zinv_run _ _ _ _ _ (zinv0 lat) H) as Z. destruct (ti_idle _ (tinv_run _ _ _ _ _ (zinv0 lat) tinv0 T H) X) as (A & B & C & D).
  pose proof (zi_sum _ _ Z) as S. rewrite A, B, C, D, z_sum_nil in S. unfold all_through. lia.
Qed.
Lemma lost_none us lat es : forall s s', Forall no_reset es -> z_run us lat es s = Some s' -> z_lost s' = z_lost s.
Proof.
  induction es as [|e es IH]; intros s s' F H; cbn [z_run] in H; [injection H as <-; reflexivity|]. inversion F as [|? ? F1 F2]; subst.
  destruct (z_step us lat e s) as [s1|] eqn:E; [|discriminate]. rewrite (IH _ _ F2 H). clear H IH.
  destruct e as [n|k b| |rd p rst]; unfold z_step, z_act, z_count in E; cbn [no_reset] in *; cbv zeta in E; [| |try contradiction|subst rst];
  repeat match type of E with context [if ?c then _ else _] => destruct c end; try discriminate; injection E as <-; cbn; lia.
Qed.
Lemma z_run_app us lat a b : forall s, z_run us lat (a ++ b) s = match z_run us lat a s with Some s' => z_run us lat b s' | None => None end.
Proof. induction a as [|e a IH]; intros s; cbn [z_run app]; [reflexivity|]. destruct (z_step us lat e s); [apply IH|reflexivity]. Qed.
Lemma tidy_app us lat a b : forall s s', tidy us lat (a ++ b) s -> z_run us lat a s = Some s' -> tidy us lat a s /\ tidy us lat b s'.
Proof.
  induction a as [|e a IH]; intros s s' T H; cbn [z_run app tidy] in *; [injection H as <-; auto|]. destruct T as [T1 T2].
  destruct (z_step us lat e s); [|discriminate]. destruct (IH _ _ T2 H). auto.
Qed.
(** What is on the bus makes the source active, without resets. *)
Lemma busy_step us lat e s s' : no_reset e -> (z_v s <> 0 -> z_active s = true) -> z_step us lat e s = Some s' -> z_v s' <> 0 -> z_active s' = true.
Proof.
  intros N I E. destruct e as [n|k b| |rd p rst]; unfold z_step, z_act, z_count in E; cbn [no_reset] in *; cbv zeta in E; [| |try contradiction|subst rst];
  repeat match type of E with context [if ?c then _ else _] => destruct c end; try discriminate; injection E as <-; cbn; auto.
Qed.
Lemma busy_run us lat es : forall s s', Forall no_reset es -> (z_v s <> 0 -> z_active s = true) -> z_run us lat es s = Some s' -> z_v s' <> 0 -> z_active s' = true.
Proof.
  induction es as [|e es IH]; intros s s' F I H; cbn [z_run] in H; [injection H as <-; exact I|]. inversion F as [|? ? F1 F2]; subst.
  destruct (z_step us lat e s) as [s1|] eqn:E; [|discriminate]. exact (IH _ _ F2 (busy_step _ _ _ _ _ F1 I E) H).
Qed.
Theorem idle_right us lat es rd p s : tidy us lat (es ++ [ZEdge rd p false]) src0 -> Forall no_reset es ->
  z_run us lat (es ++ [ZEdge rd p false]) src0 = Some s -> z_is_idle s = true -> all_through s.
Proof.
  intros T F H X. pose proof (zinv_run _ _ _ _ _ (zinv0 lat) H) as Z'. rewrite z_run_app in H. destruct (z_run us lat es src0) as [m|] eqn:M; [|discriminate].
  destruct (tidy_app _ _ _ _ _ _ T M) as [_ T2]. cbn [tidy] in T2. destruct T2 as [T2 _].
  pose proof (zinv_run _ _ _ _ _ (zinv0 lat) M) as Z. assert (B : z_v m <> 0 -> z_active m = true) by (apply (busy_run _ _ _ _ _ F) with (2 := M); cbn; lia).
  cbn [z_run] in H. destruct (z_step us lat (ZEdge rd p false) m) as [s1|] eqn:E; [|discriminate]. injection H as ->.
  unfold z_is_idle in X. apply andb_prop in X as [X1 X2]. apply negb_true_iff in X2. pose proof (zi_sum _ _ Z') as S. unfold all_through.
  assert (Q : z_q s = []) by (destruct (z_q s); [reflexivity|discriminate]). rewrite Q, z_sum_nil in S.
  enough (z_v s = 0 /\ z_d s = 0 /\ z_r s = 0) by lia. clear S X1.
  destruct (step_act _ _ _ _ _ E) as (a & K & _ & F2 & F3 & F4 & _ & F6 & _). rewrite F2, F3, F4. rewrite F6 in X2. clear F2 F3 F4 F6 E Q Z' s. rename K into E. unfold z_act in E. cbv zeta in E. destruct (z_asleep m) eqn:AS.
  - injection E as <-. destruct (zi_sleep _ _ Z AS) as [D V]. destruct T2 as [T2|[T2 _]]; [congruence|auto].
  - match type of E with (if ?c then _ else _) = _ => destruct c eqn:C end.
    + match type of E with (if ?c then _ else _) = _ => destruct c end; injection E as <-; cbn in *; [discriminate|].
      apply negb_false_iff in X2. destruct T2 as [T2|[T2 _]]; [lia|]. repeat split; auto. lia.
    + injection E as <-. apply orb_false_elim in C as [C _]. apply orb_false_elim in C as [_ C]. rewrite B in X2 by lia. discriminate.
Qed.
(** [wait] ends. *)
Definition left_ (s : src) : Z := z_v s + z_d s + z_r s + z_sum (z_q s).
Definition meas (s : src) : Z := if z_idle s then -1 else 2 * left_ s - (if z_v s =? 0 then 0 else 1).
Lemma flow_step us lat e s s' : zinv lat s -> tinv s -> match e with ZEdge _ _ _ => settled s | ZClear => z_r s = 0 /\ z_d s = 0 /\ z_v s = 0 | _ => True end -> flowing e -> z_step us lat e s = Some s' ->
  (if is_edge e then z_idle s' = true \/ meas s' <= meas s - 1 else meas s' = meas s) /\ (z_idle s = true -> z_idle s' = true).
Proof.
  intros [Q R D V L S A _] [I W] T F K0. destruct (step_act _ _ _ _ _ K0) as (a & H & F1 & F2 & F3 & F4 & _ & _ & F7). assert (M : meas s' = meas a) by (unfold meas, left_; rewrite F1, F2, F3, F4, F7; reflexivity).
  rewrite M, F7. clear s' K0 M F1 F2 F3 F4 F7. unfold z_act in H. pose proof (z_sum_nonneg _ Q) as P. destruct e as [n|k b| |rd p rst]; cbn [flowing is_edge] in *; cbv zeta in H; [contradiction| |contradiction|].
  - cbv zeta in H. destruct ((z_d s =? 0) && (1 <=? b) && (b <=? z_r s + z_sum (firstn k (z_q s)))) eqn:E; [|discriminate]. injection H as <-.
    apply andb_prop in E as [E E3]. apply andb_prop in E as [E1 E2]. pose proof (z_sum_split k (z_q s)) as K. split; [|auto].
    unfold meas, left_. cbn [z_q z_r z_d z_v z_idle]. destruct (z_idle s); [reflexivity|]. destruct (z_v s =? 0); lia.
  - destruct F as (-> & -> & ->). destruct (z_asleep s) eqn:AS.
    + injection H as <-. split; [|auto]. destruct (A eq_refl) as [A1 A2]. destruct T as [T|[T1 T2]]; [lia|]. left. apply (W eq_refl). exact T2.
    + cbv zeta in H. replace (true && negb (z_v s =? 0) || negb (negb (z_v s =? 0)) || lat) with true in H by (destruct (z_v s =? 0), lat; reflexivity).
      destruct (z_d s =? 0) eqn:E; cbn [negb andb orb] in H; injection H as <-; cbn [z_idle].
      * rewrite orb_true_r. auto.
      * split; [|auto]. unfold meas, left_. cbn [z_q z_r z_d z_v z_idle]. destruct (z_idle s) eqn:Y; [left; reflexivity|right]. rewrite E. destruct (z_v s =? 0) eqn:V0; lia.
Qed.
Theorem wait_ends us lat es : forall s s', zinv lat s -> tinv s -> tidy us lat es s -> Forall flowing es -> z_run us lat es s = Some s' ->
  meas s < edges es -> z_idle s' = true.
Proof.
  induction es as [|e es IH]; intros s s' Z I T F H M; cbn [z_run tidy] in *.
  - injection H as <-. unfold edges in M. cbn in M. unfold meas, left_ in M. destruct (z_idle s); [reflexivity|].
    pose proof (zi_v _ _ Z). pose proof (zi_d _ _ Z). pose proof (zi_r _ _ Z). pose proof (z_sum_nonneg _ (zi_q _ _ Z)). destruct (z_v s =? 0) eqn:V; lia.
  - destruct T as [T1 T2]. inversion F as [|? ? F1 F2]; subst. destruct (z_step us lat e s) as [s1|] eqn:E; [|discriminate].
    destruct (flow_step _ _ _ _ _ Z I T1 F1 E) as [K1 K2]. apply (IH _ _ (zinv_step _ _ _ _ _ Z E) (tinv_step _ _ _ _ _ Z I T1 E) T2 F2 H).
    unfold edges in *. cbn [filter] in M. pose proof (zlen_nonneg (filter is_edge es)) as N. destruct (is_edge e).
    + unfold zlen in *. cbn [length] in M. destruct K1 as [K1|K1]; [unfold meas; rewrite K1|]; lia.
    + lia.
Qed.
Theorem wait_ends0 us lat es more s s' : tidy us lat (es ++ more) src0 -> z_run us lat es src0 = Some s -> z_run us lat more s = Some s' ->
  Forall flowing more -> 2 * (z_sent s - z_taken s - z_lost s) < edges more -> z_idle s' = true /\ all_through s'.
Proof.
  intros T H H' F M. destruct (tidy_app _ _ _ _ _ _ T H) as [T1 T2]. pose proof (zinv_run _ _ _ _ _ (zinv0 lat) H) as Z. pose proof (tinv_run _ _ _ _ _ (zinv0 lat) tinv0 T1 H) as I.
  assert (X : z_idle s' = true).
  { apply (wait_ends _ _ _ _ _ Z I T2 F H'). pose proof (zi_sum _ _ Z). pose proof (zi_v _ _ Z). pose proof (zi_d _ _ Z). pose proof (zi_r _ _ Z). pose proof (z_sum_nonneg _ (zi_q _ _ Z)).
    unfold meas, left_. destruct (z_idle s); [lia|]. destruct (z_v s =? 0); lia. }
  split; [exact X|]. apply (wait_right us lat (es ++ more)); auto. rewrite z_run_app, H. exact H'.
Qed.
(** Pauses *)
Theorem paused_holds us lat rd rst s s' : z_step us lat (ZEdge rd true rst) s = Some s' -> z_d s' = z_d s /\ z_r s' = z_r s /\ z_q s' = z_q s /\ (z_v s' = z_v s \/ z_v s' = 0).
Proof.
  intros K. destruct (step_act _ _ _ _ _ K) as (a & H & F1 & F2 & F3 & F4 & _). rewrite F1, F2, F3, F4. clear s' K F1 F2 F3 F4. unfold z_act in H. cbv zeta in H.
  rewrite andb_false_r in H. cbn [negb andb] in H.
  repeat match type of H with (if ?c then _ else _) = _ => destruct c end; injection H as <-; cbn; auto.
Qed.
(** Sinks *)
Definition beat1 (s : snk) (eop : bool) : snk := if eop then mkSnk (zs_n s + 1) true false else s.
Lemma beats ends : forall s, 0 <= zs_n s -> let s' := fold_left beat1 ends s in zs_n s' = zs_n s + zlen (filter id ends) /\ (zs_ev s = (0 <? zs_n s) -> zs_ev s' = (0 <? zs_n s')).
Proof.
  induction ends as [|b ends IH]; intros s N; cbn [fold_left]; cbv zeta; [cbn; split; [lia|auto]|]. destruct b; cbn [beat1 filter id].
  - destruct (IH (mkSnk (zs_n s + 1) true false) ltac:(cbn; lia)) as [A B]. cbv zeta in *. unfold id in *. split.
    + rewrite A. unfold zlen. cbn [zs_n length]. lia.
    + intros _. apply B. cbn. lia.
  - exact (IH s N).
Qed.
Theorem sink_wait es : forall s s', 0 <= zs_n s -> zs_ev s = (0 <? zs_n s) -> zs_run es s = Some s' -> zs_n s' = waiting es (zs_n s) /\ 0 <= zs_n s' /\ zs_ev s' = (0 <? zs_n s').
Proof.
  induction es as [|e es IH]; intros s s' N E H; cbn [zs_run waiting] in *; [injection H as <-; auto|].
  destruct e as [ends| |]; cbn [zs_step] in H.
  - destruct (beats ends (mkSnk (zs_n s) (zs_ev s) true) N) as [A B]. unfold beat1 in A, B. cbn [zs_n zs_ev] in A, B. specialize (B E).
    destruct (IH _ _ ltac:(rewrite A; pose proof (zlen_nonneg (filter id ends)); lia) B H) as (X & Y). rewrite X, A. rewrite A in X. rewrite <- X. auto.
  - destruct (0 <? zs_n s) eqn:P; [|discriminate]. cbv zeta in H. refine (IH _ _ _ _ H); cbn [zs_n zs_ev]; [lia|].
    destruct (zs_n s - 1 =? 0) eqn:O; [|rewrite E]; lia.
  - exact (IH (mkSnk 0 false (zs_active s)) _ ltac:(cbn; lia) eq_refl H).
Qed.
Lemma beat_repeat n : forall s, fold_left beat1 (repeat false n) s = s.
Proof. induction n as [|n IH]; intros s; cbn; [reflexivity|apply IH]. Qed.
Theorem sink_idle es : forall s s' b, zs_active s = b -> Forall end_last es -> zs_run es s = Some s' -> zs_active s' = frame_open es b.
Proof.
  induction es as [|e es IH]; intros s s' b A F H; cbn [zs_run frame_open] in *; [injection H as <-; exact A|]. inversion F as [|? ? F1 F2]; subst.
  destruct e as [ends| |]; cbn [zs_step] in H.
  - cbn [end_last] in F1. destruct F1 as (n & c & ->). fold beat1 in H. change (fun s (eop : bool) => if eop then mkSnk (zs_n s + 1) true false else s) with beat1 in H.
    rewrite fold_left_app, beat_repeat in H. refine (IH _ _ _ _ F2 H). rewrite last_last. destruct c; reflexivity.
  - destruct (0 <? zs_n s); [|discriminate]. exact (IH _ _ _ eq_refl F2 H).
  - refine (IH _ _ _ _ F2 H). reflexivity.
Qed.
