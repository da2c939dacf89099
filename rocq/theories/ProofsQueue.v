(** Proofs about the queues. *)
From Verif Require Import Base BaseProofs ModelQueue SpecQueue.
From Coq Require Import Permutation.

Lemma total_app a b : total (a ++ b) = total a + total b.
Proof. unfold total. rewrite concat_app, zlen_app. reflexivity. Qed.
Lemma total_cons f l : total (f :: l) = zlen f + total l.
Proof. unfold total. cbn [concat]. apply zlen_app. Qed.
Lemma total_one f : total [f] = zlen f.
Proof. rewrite total_cons. unfold total. cbn. lia. Qed.
Lemma total_nil : total [] = 0. Proof. reflexivity. Qed.
Lemma total_nn l : 0 <= total l.
Proof. unfold total, zlen. lia. Qed.
Lemma zlen_one {A} (a : A) : zlen [a] = 1. Proof. reflexivity. Qed.

Lemma nth_split_at {A} : forall n (l : list A) a, nth_error l n = Some a -> l = firstn n l ++ a :: skipn (S n) l.
Proof. induction n as [|n IH]; intros [|b l] a H; cbn in *; try discriminate; [congruence|]. f_equal. apply IH, H. Qed.
Lemma in_remove {A} n (l : list A) x : In x (remove_at n l) -> In x l.
Proof.
  unfold remove_at. intro H. apply in_app_or in H. destruct H as [H|H].
  - rewrite <- (firstn_skipn n l). apply in_or_app. auto.
  - rewrite <- (firstn_skipn (S n) l). apply in_or_app. auto.
Qed.

(** The state as it is without [clear] *)
Record qinv (lb lf : Z) (s : qst) : Prop := mkQinv {
  qi_bytes : x_bytes s = total (x_queue s);
  qi_frames : x_frames s = zlen (x_queue s);
  qi_order : x_out s ++ x_queue s = x_in s;
  qi_sleep : forall f, In (f, false) (x_wait s) -> q_full lb lf s = true }.
Lemma qinv_new lb lf : qinv lb lf qs_new.
Proof. constructor; try reflexivity. intros f []. Qed.
Lemma full_put lb lf f s : q_full lb lf s = true -> q_full lb lf (q_put f s) = true.
Proof.
  unfold q_full, q_put; cbn. pose proof (zlen_nonneg f).
  destruct ((lb >? 0) && (x_bytes s >? lb))%bool eqn:B; destruct ((lb >? 0) && (x_bytes s + zlen f >? lb))%bool eqn:B'; try reflexivity.
  - lia.
  - destruct ((lf >? 0) && (x_frames s >? lf))%bool eqn:C; [|discriminate]. destruct ((lf >? 0) && (x_frames s + 1 >? lf))%bool eqn:C'; [reflexivity|lia].
Qed.
Lemma full_waits lb lf w s : q_full lb lf (q_waits w s) = q_full lb lf s.
Proof. reflexivity. Qed.
Lemma put_inv lb lf f s : qinv lb lf s -> qinv lb lf (q_put f s).
Proof.
  intros [A B C D]. constructor; cbn.
  - rewrite total_app, total_one. lia.
  - rewrite zlen_app, zlen_one. lia.
  - rewrite app_assoc, C. reflexivity.
  - intros g H. apply full_put, (D g H).
Qed.
Lemma waits_inv lb lf w s : qinv lb lf s -> (forall f, In (f, false) w -> q_full lb lf s = true) -> qinv lb lf (q_waits w s).
Proof. intros [A B C D] H. constructor; cbn; assumption. Qed.
Lemma q_step_inv lb lf e s s' : e <> QClear -> qinv lb lf s -> q_step lb lf e s = Some s' -> qinv lb lf s'.
Proof.
  intros NC I H. destruct e as [f|f|n| | |f]; cbn in H.
  - injection H as <-. destruct (q_full lb lf s) eqn:F; [|apply put_inv, I]. apply waits_inv; auto.
  - injection H as <-. destruct (q_full lb lf s) eqn:F; [|apply put_inv, I]. destruct I. constructor; assumption.
  - destruct (nth_error (x_wait s) n) as [[f [|]]|] eqn:N; try discriminate. injection H as <-. rewrite full_waits.
    assert (I1 : qinv lb lf (q_waits (remove_at n (x_wait s)) s)).
    { apply waits_inv; [exact I|]. intros g G. apply in_remove in G. exact (qi_sleep _ _ _ I g G). }
    destruct (q_full lb lf s) eqn:F; [|apply put_inv, I1]. apply waits_inv; auto.
  - destruct (x_queue s) as [|f r] eqn:Q; [discriminate|]. injection H as <-. destruct I as [A B C D]. rewrite Q in *. constructor; cbn.
    + rewrite total_cons in A. lia.
    + rewrite zlen_cons in B. lia.
    + rewrite <- app_assoc. exact C.
    + intros g G. apply in_map_iff in G. destruct G as (w & E & _). discriminate E.
  - congruence.
  - injection H as <-. apply put_inv, I.
Qed.
Lemma q_run_inv lb lf : forall es s s', ~ In QClear es -> qinv lb lf s -> q_run lb lf es s = Some s' -> qinv lb lf s'.
Proof.
  induction es as [|e es IH]; intros s s' N I H; cbn in H; [congruence|].
  destruct (q_step lb lf e s) as [s1|] eqn:E; [|discriminate].
  apply (IH s1); [intro; apply N; right; assumption | | exact H].
  apply (q_step_inv lb lf e s); [intros ->; apply N; left; reflexivity | exact I | exact E].
Qed.

(** Nothing is lost *)
Lemma q_step_kept lb lf e s s' : q_step lb lf e s = Some s' ->
  Permutation (x_in s' ++ map fst (x_wait s') ++ x_no s') (given [e] ++ x_in s ++ map fst (x_wait s) ++ x_no s).
Proof.
  assert (P : forall f (a b c : list (list Z)), Permutation ((a ++ [f]) ++ b ++ c) ([f] ++ a ++ b ++ c)).
  { intros. rewrite <- app_assoc. cbn. symmetry. apply Permutation_middle. }
  assert (P2 : forall f (a b c : list (list Z)), Permutation (a ++ (b ++ [f]) ++ c) ([f] ++ a ++ b ++ c)).
  { intros f a b c. rewrite <- app_assoc. cbn. rewrite !app_assoc. symmetry. apply Permutation_middle. }
  assert (P3 : forall f (a b c : list (list Z)), Permutation (a ++ b ++ c ++ [f]) ([f] ++ a ++ b ++ c)).
  { intros f a b c. rewrite !app_assoc. symmetry. rewrite <- !app_assoc. cbn. rewrite !app_assoc. apply Permutation_cons_append. }
  intro H. destruct e as [f|f|n| | |f]; cbn in H.
  - injection H as <-. destruct (q_full lb lf s); cbn; [rewrite map_app|]; cbn; [apply P2|apply P].
  - injection H as <-. destruct (q_full lb lf s); cbn; [apply P3|apply P].
  - destruct (nth_error (x_wait s) n) as [[f [|]]|] eqn:N; try discriminate. injection H as <-. rewrite full_waits.
    assert (W : Permutation (map fst (x_wait s)) (f :: map fst (remove_at n (x_wait s)))).
    { rewrite (nth_split_at _ _ _ N) at 1. unfold remove_at. rewrite !map_app. cbn. symmetry. apply Permutation_middle. }
    cbn [given flat_map app]. transitivity (x_in s ++ (f :: map fst (remove_at n (x_wait s))) ++ x_no s).
    + destruct (q_full lb lf s); cbn [q_waits q_put x_in x_wait x_no].
      * rewrite map_app. cbn [map fst]. apply Permutation_app_head, Permutation_app_tail. symmetry. apply Permutation_cons_append.
      * rewrite <- app_assoc. reflexivity.
    + apply Permutation_app_head, Permutation_app_tail. symmetry. exact W.
  - destruct (x_queue s) as [|f r]; [discriminate|]. injection H as <-. cbn. rewrite map_map. cbn. reflexivity.
  - injection H as <-. reflexivity.
  - injection H as <-. cbn. apply P.
Qed.
Lemma given_cons e es : given (e :: es) = given [e] ++ given es.
Proof. unfold given. cbn [flat_map]. rewrite app_nil_r. reflexivity. Qed.
Lemma q_run_kept lb lf : forall es s s', q_run lb lf es s = Some s' ->
  Permutation (x_in s' ++ map fst (x_wait s') ++ x_no s') (given es ++ x_in s ++ map fst (x_wait s) ++ x_no s).
Proof.
  induction es as [|e es IH]; intros s s' H; cbn in H; [injection H as <-; reflexivity|].
  destruct (q_step lb lf e s) as [s1|] eqn:E; [|discriminate].
  rewrite (IH _ _ H), (q_step_kept _ _ _ _ _ E), (given_cons e es), <- !app_assoc, !app_assoc. apply Permutation_app_tail, Permutation_app_tail, Permutation_app_tail. apply Permutation_app_comm.
Qed.

(** Limits *)
Lemma put_ok lb lf s : q_full lb lf s = false -> (0 < lb -> x_bytes s <= lb) /\ (0 < lf -> x_frames s <= lf).
Proof. unfold q_full. intro H. destruct ((lb >? 0) && (x_bytes s >? lb))%bool eqn:?; [discriminate|]. destruct ((lf >? 0) && (x_frames s >? lf))%bool eqn:?; [discriminate|]. split; lia. Qed.
Definition lim (lb lf M : Z) (s : qst) : Prop := (0 < lb -> x_bytes s <= lb + M) /\ (0 < lf -> x_frames s <= lf + 1) /\ (forall w, In w (x_wait s) -> zlen (fst w) <= M).
Lemma lim_step lb lf M e s s' : e <> QClear -> sink_label e = false -> Forall (fun f => zlen f <= M) (given [e]) -> 0 <= M -> lim lb lf M s -> q_step lb lf e s = Some s' -> lim lb lf M s'.
Proof.
  intros NC NS G M0 (A & B & C) H. destruct e as [f|f|n| | |f]; cbn in H, G.
  - inversion G as [|? ? G1 _]; subst. injection H as <-. destruct (q_full lb lf s) eqn:F; unfold lim; cbn.
    + repeat split; try assumption. intros w W. apply in_app_or in W. destruct W as [W|[<-|[]]]; [apply C, W|exact G1].
    + apply put_ok in F. repeat split; try assumption; lia.
  - inversion G as [|? ? G1 _]; subst. injection H as <-. destruct (q_full lb lf s) eqn:F; unfold lim; cbn; [auto|].
    apply put_ok in F. repeat split; try assumption; lia.
  - destruct (nth_error (x_wait s) n) as [[f [|]]|] eqn:N; try discriminate. injection H as <-. rewrite full_waits.
    assert (G1 : zlen f <= M) by (exact (C _ (nth_error_In _ _ N))).
    destruct (q_full lb lf s) eqn:F; unfold lim; cbn.
    + repeat split; try assumption. intros w W. apply in_app_or in W. destruct W as [W|[<-|[]]]; [apply C, (in_remove n), W|exact G1].
    + apply put_ok in F. repeat split; try lia. intros w W. apply C, (in_remove n), W.
  - destruct (x_queue s) as [|f r]; [discriminate|]. injection H as <-. unfold lim; cbn. pose proof (zlen_nonneg f). repeat split; try lia.
    intros w W. apply in_map_iff in W. destruct W as (v & <- & V). cbn. apply C, V.
  - congruence.
  - discriminate NS.
Qed.
Lemma lim_run lb lf M : 0 <= M -> forall es s s', ~ In QClear es -> forallb (fun e => negb (sink_label e)) es = true -> Forall (fun f => zlen f <= M) (given es) -> lim lb lf M s -> q_run lb lf es s = Some s' -> lim lb lf M s'.
Proof.
  intro M0. induction es as [|e es IH]; intros s s' N S G L H; cbn in H; [congruence|].
  destruct (q_step lb lf e s) as [s1|] eqn:E; [|discriminate]. cbn in S. apply andb_prop in S. destruct S as [S1 S2].
  rewrite given_cons in G. apply Forall_app in G. destruct G as [G1 G2].
  apply (IH s1); auto; [intro; apply N; right; assumption|].
  apply (lim_step lb lf M e s); auto; [intros ->; apply N; left; reflexivity|]. destruct (sink_label e); [discriminate|reflexivity].
Qed.
Theorem limits : forall lb lf M es s, 0 <= M -> ~ In QClear es -> forallb (fun e => negb (sink_label e)) es = true -> Forall (fun f => zlen f <= M) (given es) ->
  q_run lb lf es qs_new = Some s -> (0 < lb -> total (x_queue s) <= lb + M) /\ (0 < lf -> zlen (x_queue s) <= lf + 1).
Proof.
  intros lb lf M es s M0 N S G H.
  pose proof (q_run_inv lb lf es qs_new s N (qinv_new lb lf) H) as [A B _ _]. rewrite <- A, <- B.
  destruct (lim_run lb lf M M0 es qs_new s N S G) as (X & Y & _); auto.
  split; [|split]; cbn; intros; try lia; contradiction.
Qed.

(** Nobody waits for ever *)
Lemma full_some lb lf s : qinv lb lf s -> q_full lb lf s = true -> x_queue s <> [].
Proof.
  intros [A B _ _] F E. rewrite E in *. unfold q_full in F. rewrite A, B, total_nil in F. change (zlen (@nil (list Z))) with 0 in F.
  destruct ((lb >? 0) && (0 >? lb))%bool eqn:?; [lia|]. destruct ((lf >? 0) && (0 >? lf))%bool eqn:?; [lia|discriminate].
Qed.
Lemma gets lb lf : forall q s, x_queue s = q -> q <> [] -> qinv lb lf s ->
  exists s', q_run lb lf (repeat QGet (length q)) s = Some s' /\ x_queue s' = [] /\ x_in s' = x_in s /\ x_wait s' = map (fun w => (fst w, true)) (x_wait s) /\ qinv lb lf s'.
Proof.
  induction q as [|f r IH]; intros s Q N I; [congruence|].
  cbn [repeat length q_run q_step]. rewrite Q.
  set (s1 := mkQs r _ _ _ _ _ _).
  assert (E1 : q_step lb lf QGet s = Some s1) by (cbn; rewrite Q; reflexivity).
  assert (I1 : qinv lb lf s1) by (exact (q_step_inv lb lf QGet s s1 ltac:(discriminate) I E1)).
  destruct r as [|g r].
  - exists s1. cbn. repeat split; auto; apply I1.
  - destruct (IH s1 eq_refl ltac:(discriminate) I1) as (s' & R & A & B & C & D). exists s'. repeat split; auto; try apply D.
    rewrite C. unfold s1; cbn. rewrite map_map. reflexivity.
Qed.
Lemma q_run_app lb lf : forall a b s, q_run lb lf (a ++ b) s = match q_run lb lf a s with Some s' => q_run lb lf b s' | None => None end.
Proof. induction a as [|e a IH]; intros b s; [reflexivity|]. cbn. destruct (q_step lb lf e s); [apply IH|reflexivity]. Qed.
Theorem served : forall lb lf es s n f w, ~ In QClear es -> q_run lb lf es qs_new = Some s -> nth_error (x_wait s) n = Some (f, w) ->
  (w = false -> x_queue s <> []) /\
  exists s', q_run lb lf (repeat QGet (length (x_queue s)) ++ [QWake n]) s = Some s' /\ x_queue s' = [f] /\ x_in s' = x_in s ++ [f].
Proof.
  intros lb lf es s n f w N H W. pose proof (q_run_inv lb lf es qs_new s N (qinv_new lb lf) H) as I.
  assert (A : w = false -> x_queue s <> []).
  { intros ->. apply (full_some lb lf); [exact I|]. apply (qi_sleep _ _ _ I f), (nth_error_In _ _ W). }
  split; [exact A|].
  assert (L : forall s1, qinv lb lf s1 -> x_queue s1 = [] -> nth_error (x_wait s1) n = Some (f, true) -> exists s', q_step lb lf (QWake n) s1 = Some s' /\ x_queue s' = [f] /\ x_in s' = x_in s1 ++ [f]).
  { intros s1 I1 Q1 W1. cbn. rewrite W1, full_waits. destruct (q_full lb lf s1) eqn:F; [exfalso; exact (full_some _ _ _ I1 F Q1)|].
    eexists. split; [reflexivity|]. cbn. rewrite Q1. auto. }
  destruct (x_queue s) as [|g r] eqn:Q.
  - destruct w; [|exfalso; exact (A eq_refl eq_refl)]. destruct (L s I Q W) as (s' & E & X & Y). exists s'. cbn [length repeat app q_run]. rewrite E. auto.
  - destruct (gets lb lf (g :: r) s Q ltac:(discriminate) I) as (s1 & R & Q1 & IN & WT & I1).
    destruct (L s1 I1 Q1) as (s' & E & X & Y); [rewrite WT, nth_error_map, W; reflexivity|].
    exists s'. rewrite q_run_app, R. cbn [q_run]. rewrite E. rewrite <- IN. auto.
Qed.

(** [clear] *)
Definition dead (lb lf : Z) (s : qst) : Prop := x_queue s = [] /\ q_full lb lf s = true.
Lemma dead_step lb lf e s s' : sink_label e = false -> dead lb lf s -> q_step lb lf e s = Some s' -> dead lb lf s' /\ x_in s' = x_in s.
Proof.
  intros S [A B] H. destruct e as [f|f|n| | |f]; cbn in H; try discriminate S.
  - rewrite B in H. injection H as <-. repeat split; assumption.
  - rewrite B in H. injection H as <-. repeat split; assumption.
  - destruct (nth_error (x_wait s) n) as [[f [|]]|]; try discriminate. rewrite full_waits, B in H. injection H as <-. repeat split; assumption.
  - rewrite A in H. discriminate.
  - injection H as <-. repeat split; assumption.
Qed.
Lemma dead_run lb lf : forall es s s', forallb (fun e => negb (sink_label e)) es = true -> dead lb lf s -> q_run lb lf es s = Some s' -> dead lb lf s' /\ x_in s' = x_in s.
Proof.
  induction es as [|e es IH]; intros s s' S D H; cbn in H; [injection H as <-; auto|].
  destruct (q_step lb lf e s) as [s1|] eqn:E; [|discriminate]. cbn in S. apply andb_prop in S. destruct S as [S1 S2].
  destruct (dead_step lb lf e s s1) as [D1 X1]; auto; [destruct (sink_label e); [discriminate|reflexivity]|].
  destruct (IH s1 s' S2 D1 H) as [D2 X2]. split; [exact D2|congruence].
Qed.
Theorem counts : forall lb lf es s, ~ In QClear es -> q_run lb lf es qs_new = Some s ->
  x_bytes s = total (x_queue s) /\ x_frames s = zlen (x_queue s) /\ x_out s ++ x_queue s = x_in s.
Proof. intros lb lf es s N H. destruct (q_run_inv lb lf es qs_new s N (qinv_new lb lf) H). auto. Qed.
Theorem kept : forall lb lf es s, q_run lb lf es qs_new = Some s -> Permutation (x_in s ++ map fst (x_wait s) ++ x_no s) (given es).
Proof. intros lb lf es s H. pose proof (q_run_kept lb lf es qs_new s H) as P. cbn in P. rewrite app_nil_r in P. exact P. Qed.

(** ** Sinks *)
Lemma puts_inv lb lf : forall fs q, qinv lb lf q -> qinv lb lf (fold_left (fun q f => q_put f q) fs q).
Proof. induction fs as [|f fs IH]; intros q I; [exact I|]. cbn. apply IH, put_inv, I. Qed.
Lemma puts_frames : forall fs q, x_frames (fold_left (fun q f => q_put f q) fs q) = x_frames q + zlen fs.
Proof. induction fs as [|f fs IH]; intros q; [cbn; lia|]. cbn [fold_left]. rewrite IH, zlen_cons. change (x_frames (q_put f q)) with (x_frames q + 1). lia. Qed.
Definition kinv (lb lf k : Z) (s : ksink) : Prop :=
  qinv lb lf (k_q s) /\ (0 < lf -> x_frames (k_q s) <= lf + 2 * k) /\ (0 < lf -> k_ready s = true -> x_frames (k_q s) <= lf + k).
Lemma kinv_step lb lf k e s s' : 0 <= k -> at_most k e -> kinv lb lf k s -> k_step lb lf e s = Some s' -> kinv lb lf k s'.
Proof.
  intros K A (I & B & C) H. destruct e as [v p ch fs| |]; cbn [k_step at_most] in *.
  - destruct (k_awake s); [|injection H as <-; repeat split; auto; apply I]. injection H as <-.
    assert (N : k_ready s && v = false \/ k_ready s = true) by (destruct (k_ready s); auto).
    unfold kinv; cbn [k_q k_ready]. destruct (k_ready s && v)%bool eqn:T.
    + destruct N as [N|N]; [discriminate|]. split; [apply puts_inv, I|]. rewrite puts_frames. split; intro L; [specialize (C L N); lia|].
      intro R. assert (F : q_full lb lf (k_q s) = false) by (destruct (q_full lb lf (k_q s)); [discriminate R|reflexivity]).
      apply put_ok in F. lia.
    + split; [exact I|]. split; [exact B|]. intros L R. assert (F : q_full lb lf (k_q s) = false) by (destruct (q_full lb lf (k_q s)); [discriminate R|reflexivity]).
      apply put_ok in F. lia.
  - destruct (q_step lb lf QGet (k_q s)) as [q|] eqn:E; [|discriminate]. injection H as <-. unfold kinv; cbn [k_q k_ready].
    assert (I' : qinv lb lf q) by (exact (q_step_inv lb lf QGet _ _ ltac:(discriminate) I E)).
    assert (F : x_frames q = x_frames (k_q s) - 1) by (cbn in E; destruct (x_queue (k_q s)); [discriminate|injection E as <-; reflexivity]).
    split; [exact I'|]. split; intro L; [specialize (B L); lia|]. intro R. specialize (C L R). lia.
  - injection H as <-. repeat split; auto; apply I.
Qed.
Lemma kinv_run lb lf k : 0 <= k -> forall es s s', Forall (at_most k) es -> kinv lb lf k s -> k_run lb lf es s = Some s' -> kinv lb lf k s'.
Proof.
  intro K. induction es as [|e es IH]; intros s s' A I H; cbn in H; [congruence|].
  destruct (k_step lb lf e s) as [s1|] eqn:E; [|discriminate]. inversion A; subst. apply (IH s1); auto. apply (kinv_step lb lf k e s); auto.
Qed.
Theorem sink_limit : forall lb lf k es s, 0 <= k -> Forall (at_most k) es -> k_run lb lf es ks_new = Some s ->
  x_bytes (k_q s) = total (x_queue (k_q s)) /\ x_frames (k_q s) = zlen (x_queue (k_q s)) /\ x_out (k_q s) ++ x_queue (k_q s) = x_in (k_q s) /\
  (0 < lf -> zlen (x_queue (k_q s)) <= lf + 2 * k).
Proof.
  intros lb lf k es s K A H. destruct (kinv_run lb lf k K es ks_new s A) as ([B C D _] & E & _); auto.
  - split; [apply qinv_new|]. change (x_frames (k_q ks_new)) with 0. split; intros; lia.
  - repeat split; auto. rewrite <- C. exact E.
Qed.
Definition kfree (lb lf : Z) (s : ksink) : Prop := k_awake s = true \/ k_ready s = true \/ q_full lb lf (k_q s) = true.
Lemma puts_full lb lf : forall fs q, q_full lb lf q = true -> q_full lb lf (fold_left (fun q f => q_put f q) fs q) = true.
Proof. induction fs as [|f fs IH]; intros q F; [exact F|]. cbn. apply IH, full_put, F. Qed.
Lemma kfree_step lb lf e s s' : unpaused e -> kfree lb lf s -> k_step lb lf e s = Some s' -> kfree lb lf s'.
Proof.
  intros U F H. destruct e as [v p ch fs| |]; cbn [k_step unpaused] in *.
  - destruct (k_awake s); [|injection H as <-; exact F]. injection H as <-. subst p. unfold kfree; cbn [k_q k_ready k_awake].
    destruct (q_full lb lf (k_q s)) eqn:Q; [|right; left; reflexivity]. right; right. destruct (k_ready s && v)%bool; [apply puts_full|]; exact Q.
  - destruct (q_step lb lf QGet (k_q s)) as [q|]; [|discriminate]. injection H as <-. left; reflexivity.
  - injection H as <-. left; reflexivity.
Qed.
Theorem sink_free : forall lb lf es s, Forall unpaused es -> k_run lb lf es ks_new = Some s -> q_full lb lf (k_q s) = false -> k_ready s = false ->
  forall v ch fs, exists s', k_step lb lf (KEdge v false ch fs) s = Some s' /\ k_ready s' = true /\ k_q s' = k_q s.
Proof.
  intros lb lf es s U H Q R v ch fs.
  assert (F : kfree lb lf s).
  { assert (G : forall es s s', Forall unpaused es -> kfree lb lf s -> k_run lb lf es s = Some s' -> kfree lb lf s').
    { clear. induction es as [|e es IH]; intros s s' A I H; cbn in H; [congruence|].
      destruct (k_step lb lf e s) as [s1|] eqn:E; [|discriminate]. inversion A; subst. apply (IH s1); auto. apply (kfree_step lb lf e s); auto. }
    apply (G es ks_new s U); [left; reflexivity|exact H]. }
  destruct F as [F|[F|F]]; try congruence. cbn [k_step]. rewrite F, Q, R. eexists. split; [reflexivity|]. split; reflexivity.
Qed.

(** ** Sinks with a ready latency *)
Fixpoint trues (l : list bool) : Z := match l with [] => 0 | b :: l => (if b then 1 else 0) + trues l end.
Lemma trues_app a b : trues (a ++ b) = trues a + trues b.
Proof. induction a as [|x a IH]; cbn [app trues]; [lia|rewrite IH; lia]. Qed.
Lemma trues_le l : 0 <= trues l <= zlen l.
Proof. induction l as [|x a IH]; cbn [trues]; [unfold zlen; cbn; lia|]. rewrite zlen_cons. destruct x; lia. Qed.
Lemma trues_none n : trues (repeat false n) = 0.
Proof. induction n; cbn [repeat trues]; lia. Qed.
Definition ninv (lb lf k R : Z) (s : nsink) : Prop :=
  qinv lb lf (n_q s) /\ zlen (n_delay s) = R /\ (0 < lf -> x_frames (n_q s) + k * (trues (n_delay s) + (if n_ready s then 1 else 0)) <= lf + k * (R + 2)).
Lemma ninv_step lb lf k R e s s' : 0 <= k -> at_most_n k e -> ninv lb lf k R s -> n_step lb lf e s = Some s' -> ninv lb lf k R s'.
Proof.
  intros K A (I & D & B) H. destruct e as [v p fs|]; cbn [n_step at_most_n] in *.
  - set (rd := match n_delay s with [] => (n_ready s, []) | b :: d => (b, d ++ [n_ready s]) end) in *.
    assert (RD : zlen (snd rd) = R /\ (if fst rd then 1 else 0) + trues (snd rd) = trues (n_delay s) + (if n_ready s then 1 else 0)).
    { subst rd. destruct (n_delay s) as [|b d]; cbn [fst snd trues].
      - split; [exact D|lia].
      - rewrite zlen_app, zlen_one, trues_app. rewrite zlen_cons in D. cbn [trues]. split; [lia|destruct b, (n_ready s); lia]. }
    destruct rd as [r d]. cbn [fst snd] in RD. destruct RD as [D' T].
    pose proof (trues_le d) as TL.
    assert (G : forall q, qinv lb lf q -> x_frames q <= x_frames (n_q s) + (if r then k else 0) -> ninv lb lf k R (mkNs q (negb (q_full lb lf (n_q s)) && negb p) d)).
    { intros q Iq Q. unfold ninv; cbn [n_q n_ready n_delay]. split; [exact Iq|]. split; [exact D'|]. intro L. specialize (B L). rewrite <- T in B.
      destruct (q_full lb lf (n_q s)) eqn:F; cbn [negb andb].
      - destruct r; nia.
      - apply put_ok in F. destruct F as [_ F]. specialize (F L). destruct p; cbn [negb]; destruct r; nia. }
    destruct (v && r)%bool eqn:V.
    + injection H as <-. apply G; [apply puts_inv, I|]. rewrite puts_frames. destruct r; [lia|]. rewrite andb_false_r in V. discriminate.
    + match type of H with (if ?b then _ else _) = _ => destruct b; [discriminate|] end. injection H as <-. apply G; [exact I|]. destruct r; lia.
  - destruct (q_step lb lf QGet (n_q s)) as [q|] eqn:E; [|discriminate]. injection H as <-. unfold ninv; cbn [n_q n_ready n_delay].
    assert (I' : qinv lb lf q) by (exact (q_step_inv lb lf QGet _ _ ltac:(discriminate) I E)).
    assert (F : x_frames q = x_frames (n_q s) - 1) by (cbn in E; destruct (x_queue (n_q s)); [discriminate|injection E as <-; reflexivity]).
    split; [exact I'|]. split; [exact D|]. intro L. specialize (B L). lia.
Qed.
Lemma ninv_run lb lf k R : 0 <= k -> forall es s s', Forall (at_most_n k) es -> ninv lb lf k R s -> n_run lb lf es s = Some s' -> ninv lb lf k R s'.
Proof.
  intro K. induction es as [|e es IH]; intros s s' A I H; cbn in H; [congruence|].
  destruct (n_step lb lf e s) as [s1|] eqn:E; [|discriminate]. inversion A; subst. apply (IH s1); auto. apply (ninv_step lb lf k R e s); auto.
Qed.
Theorem intel_sink_limit : forall lb lf k latency es s, 0 <= k -> Forall (at_most_n k) es -> n_run lb lf es (ns_new latency) = Some s ->
  x_bytes (n_q s) = total (x_queue (n_q s)) /\ x_frames (n_q s) = zlen (x_queue (n_q s)) /\ x_out (n_q s) ++ x_queue (n_q s) = x_in (n_q s) /\
  (0 < lf -> zlen (x_queue (n_q s)) <= lf + k * (Z.of_nat latency + 2)).
Proof.
  intros lb lf k latency es s K A H. destruct (ninv_run lb lf k (Z.of_nat latency) K es (ns_new latency) s A) as ([B C D _] & L & E); auto.
  - split; [apply qinv_new|]. unfold ns_new; cbn [n_q n_ready n_delay]. split; [unfold zlen; rewrite repeat_length; reflexivity|].
    rewrite trues_none. change (x_frames qs_new) with 0. intros; nia.
  - repeat split; auto. intro P. specialize (E P). pose proof (trues_le (n_delay s)). rewrite <- C. destruct (n_ready s); nia.
Qed.

(** ** Sinks and pauses *)
Definition pfree (lb lf : Z) (s : ksink) (pause : bool) : Prop := k_awake s = true \/ k_ready s = true \/ q_full lb lf (k_q s) = true \/ pause = true.
Lemma pfree_follow lb lf es : forall s smp pause s' smp' pause', pfree lb lf s pause -> follow lb lf es s smp pause = Some (s', smp', pause') -> pfree lb lf s' pause'.
Proof.
  induction es as [|e es IH]; intros s smp pause s' smp' pause' F H; cbn [follow] in H; [congruence|]. cbv zeta in H.
  match type of H with (if ?c then _ else _) = _ => destruct c eqn:C end; [|discriminate]. destruct (k_run lb lf (told pause e) s) as [s1|] eqn:R; [|discriminate].
  refine (IH _ _ _ _ _ _ _ H). clear H IH. destruct e as [b|e]; cbn [told] in R.
  - destruct (Bool.eqb pause b) eqn:B; cbn in R; injection R as <-; [apply Bool.eqb_prop in B; subst b; exact F|left; reflexivity].
  - cbn [k_run] in R. destruct (k_step lb lf e s) as [s2|] eqn:E; [|discriminate]. injection R as <-. destruct e as [v p ch fs| |]; cbn [k_step] in E.
    + destruct (k_awake s) eqn:A; [|injection E as <-; exact F]. injection E as <-. cbn [negb orb] in C. apply andb_prop in C as [C1 C2]. apply Bool.eqb_prop in C1, C2. subst p ch.
      unfold pfree. cbn [k_awake k_ready k_q]. destruct (q_full lb lf (k_q s)) eqn:Q.
      * right; right; left. destruct (k_ready s && v)%bool; [apply puts_full|]; exact Q.
      * cbn [orb]. destruct smp, pause, v; cbn; auto.
    + destruct (q_step lb lf QGet (k_q s)) as [q|]; [|discriminate]. injection E as <-. left; reflexivity.
    + injection E as <-. left; reflexivity.
Qed.
Theorem sink_unpaused : forall lb lf es s smp, follow lb lf es ks_new false false = Some (s, smp, false) -> q_full lb lf (k_q s) = false -> k_ready s = false ->
  forall v p ch fs v' p' ch' fs' r, follow lb lf [Other (KEdge v p ch fs); Other (KEdge v' p' ch' fs')] s smp false = Some r -> k_ready (fst (fst r)) = true.
Proof.
  intros lb lf es s smp H Q R v p ch fs v' p' ch' fs' r K. pose proof (pfree_follow _ _ _ _ _ _ _ _ _ (or_introl eq_refl : pfree lb lf ks_new false) H) as F.
  assert (A : k_awake s = true) by (destruct F as [F|[F|[F|F]]]; congruence).
  cbn [follow told k_run k_step] in K. rewrite A, R in K. cbn [negb orb andb] in K.
  destruct (Bool.eqb p smp && Bool.eqb ch (xorb smp false)) eqn:C; [|discriminate]. apply andb_prop in C as [C1 C2]. apply Bool.eqb_prop in C1, C2. subst p ch. rewrite Q in K.
  destruct smp, v; cbn [negb orb andb xorb k_awake k_ready k_q] in K.
  all: try (injection K as <-; reflexivity).
  all: destruct (Bool.eqb p' false && Bool.eqb ch' false) eqn:C; [|discriminate]; apply andb_prop in C as [C1 C2]; apply Bool.eqb_prop in C1, C2; subst p' ch'; rewrite Q in K; injection K as <-; reflexivity.
Qed.
Definition pheld (s : ksink) (pause : bool) : Prop := k_awake s = true \/ k_ready s = false \/ pause = false.
Lemma pheld_follow lb lf es : forall s smp pause s' smp' pause', pheld s pause -> follow lb lf es s smp pause = Some (s', smp', pause') -> pheld s' pause'.
Proof.
  induction es as [|e es IH]; intros s smp pause s' smp' pause' F H; cbn [follow] in H; [congruence|]. cbv zeta in H.
  match type of H with (if ?c then _ else _) = _ => destruct c eqn:C end; [|discriminate]. destruct (k_run lb lf (told pause e) s) as [s1|] eqn:R; [|discriminate].
  refine (IH _ _ _ _ _ _ _ H). clear H IH. destruct e as [b|e]; cbn [told] in R.
  - destruct (Bool.eqb pause b) eqn:B; cbn in R; injection R as <-; [apply Bool.eqb_prop in B; subst b; exact F|left; reflexivity].
  - cbn [k_run] in R. destruct (k_step lb lf e s) as [s2|] eqn:E; [|discriminate]. injection R as <-. destruct e as [v p ch fs| |]; cbn [k_step] in E.
    + destruct (k_awake s) eqn:A; [|injection E as <-; exact F]. injection E as <-. cbn [negb orb] in C. apply andb_prop in C as [C1 C2]. apply Bool.eqb_prop in C1, C2. subst p ch.
      unfold pheld. cbn [k_awake k_ready k_q]. destruct (q_full lb lf (k_q s)), smp, pause, v; cbn; auto.
    + destruct (q_step lb lf QGet (k_q s)) as [q|]; [|discriminate]. injection E as <-. left; reflexivity.
    + injection E as <-. left; reflexivity.
Qed.
Theorem sink_paused : forall lb lf es s smp, follow lb lf es ks_new false false = Some (s, smp, true) ->
  forall v p ch fs v' p' ch' fs' r, follow lb lf [Other (KEdge v p ch fs); Other (KEdge v' p' ch' fs')] s smp true = Some r -> k_ready (fst (fst r)) = false.
Proof.
  intros lb lf es s smp H v p ch fs v' p' ch' fs' r K. pose proof (pheld_follow _ _ _ _ _ _ _ _ _ (or_introl eq_refl : pheld ks_new false) H) as F.
  cbn [follow told k_run k_step] in K. destruct (k_awake s) eqn:A.
  - change (xorb true true) with false in K. cbn [negb orb] in K. destruct (Bool.eqb p smp && Bool.eqb ch (xorb smp true)) eqn:C; [|discriminate]. apply andb_prop in C as [C1 C2]. apply Bool.eqb_prop in C1, C2. subst p ch.
    cbn [k_awake k_ready k_q] in K. destruct (negb ((negb v || (q_full lb lf (k_q s) || smp)) && negb (xorb smp true))) eqn:W; cbn [negb orb] in K.
    + destruct (Bool.eqb p' true && Bool.eqb ch' false) eqn:C; [|discriminate]. apply andb_prop in C as [C1 C2]. apply Bool.eqb_prop in C1, C2. subst p' ch'. rewrite orb_true_r in K. injection K as <-. reflexivity.
    + injection K as <-. cbn [fst k_ready]. destruct smp; [rewrite orb_true_r; reflexivity|]. cbn in W. rewrite andb_false_r in W. discriminate.
  - cbn [negb orb] in K. rewrite A in K. cbn [negb orb] in K. injection K as <-. cbn [fst]. destruct F as [F|[F|F]]; congruence.
Qed.
