From Coq Require Import Permutation.
From Verif Require Import Base BaseProofs ModelUtils ModelTlp ModelAttrs ModelCaps ModelCapList ModelConfig ModelFunction ModelRoute
  SpecUtils SpecBar SpecRoute SpecSwitch ProofsUtils ProofsTlp ProofsMem ProofsCaps ProofsBar ProofsRoute ProofsRouteBr ProofsSwitch.

(** ** Queues *)
Lemma upd_same {A} (g : nat -> A) i v : upd g i v i = v.
Proof. unfold upd. rewrite Nat.eqb_refl. reflexivity. Qed.
Lemma upd_other {A} (g : nat -> A) i j v : j <> i -> upd g i v j = g j.
Proof. intros H. unfold upd. destruct (Nat.eqb_spec j i); [congruence|reflexivity]. Qed.
Lemma concat_upd {A} (g g' : nat -> list A) i x l : NoDup l -> In i l -> (forall j, j <> i -> g' j = g j) -> Permutation (g' i) (x :: g i) ->
  Permutation (concat (map g' l)) (x :: concat (map g l)).
Proof.
  induction l as [|k l IH]; intros N I O P; [destruct I|]. apply NoDup_cons_iff in N. destruct N as [N0 N]. cbn [map concat].
  destruct (Nat.eq_dec k i) as [->|K].
  - rewrite P. replace (map g' l) with (map g l); [reflexivity|]. apply map_ext_in. intros j Hj. symmetry. apply O. intros ->. contradiction.
  - rewrite (O k K). destruct I as [I|I]; [congruence|]. rewrite (IH N I O P). symmetry. apply Permutation_middle.
Qed.
Lemma in_seq0 i n : (i < n)%nat -> In i (List.seq 0 n).
Proof. intros H. apply in_seq. lia. Qed.
Section Count.
Variable n : nat.
Lemma ing_put i p s : (i < n)%nat -> Permutation (in_ing n (sw_put_ing i p s)) (p :: in_ing n s).
Proof.
  intros H. unfold in_ing. cbn [sw_put_ing sw_ing]. apply (concat_upd _ _ i); [apply seq_NoDup|apply in_seq0; exact H|intros j Hj; apply upd_other; exact Hj|].
  rewrite upd_same. symmetry. apply Permutation_cons_append.
Qed.
Lemma ing_pop i p r s : (i < n)%nat -> sw_ing s i = p :: r -> Permutation (in_ing n s) (p :: in_ing n (sw_set_ing i r s)).
Proof.
  intros H E. unfold in_ing. cbn [sw_set_ing sw_ing]. apply (concat_upd _ _ i); [apply seq_NoDup|apply in_seq0; exact H|intros j Hj; symmetry; apply upd_other; exact Hj|].
  rewrite upd_same, E. reflexivity.
Qed.
Lemma q_upd i j (s s' : sw) x : (i < n)%nat -> (j < n)%nat -> (forall i' j', i' <> i \/ j' <> j -> sw_q s' i' j' = sw_q s i' j') ->
  Permutation (sw_q s' i j) (x :: sw_q s i j) -> Permutation (in_q n s') (x :: in_q n s).
Proof.
  intros I J O P. unfold in_q. apply (concat_upd (fun i => concat (map (sw_q s i) (List.seq 0 n))) _ i); [apply seq_NoDup|apply in_seq0; exact I| |].
  - intros k Hk. f_equal. apply map_ext. intros j'. apply O. left. exact Hk.
  - apply (concat_upd _ _ j); [apply seq_NoDup|apply in_seq0; exact J|intros k Hk; apply O; right; exact Hk|exact P].
Qed.
Lemma set_q_same i j l s : sw_q (sw_set_q i j l s) i j = l.
Proof. cbn [sw_set_q sw_q]. rewrite !upd_same. reflexivity. Qed.
Lemma set_q_other i j l s i' j' : i' <> i \/ j' <> j -> sw_q (sw_set_q i j l s) i' j' = sw_q s i' j'.
Proof. intros H. cbn [sw_set_q sw_q]. destruct (Nat.eq_dec i' i) as [->|N]; [|rewrite upd_other by exact N; reflexivity]. rewrite upd_same, upd_other by tauto. reflexivity. Qed.
Lemma q_put i j p s : (i < n)%nat -> (j < n)%nat -> Permutation (in_q n (sw_set_q i j (sw_q s i j ++ [p]) s)) (p :: in_q n s).
Proof.
  intros I J. apply (q_upd i j); [exact I|exact J|intros; apply set_q_other; assumption|]. rewrite set_q_same. symmetry. apply Permutation_cons_append.
Qed.
Lemma q_pop i j p r s : (i < n)%nat -> (j < n)%nat -> sw_q s i j = p :: r -> Permutation (in_q n s) (p :: in_q n (sw_set_q i j r s)).
Proof.
  intros I J E. apply (q_upd i j); [exact I|exact J|intros; symmetry; apply set_q_other; assumption|]. rewrite set_q_same, E. reflexivity.
Qed.

(** ** The invariant, with the TLPs [h] in the hands of a task *)
Definition ev_ok (e : ev) : Prop :=
  match e with
  | EIn i p => good (snd p)
  | EOut i p => True
  | EKept i p => is_cpl (snd p) = true
  | EFree i p None => non_posted (type_of (snd p)) = false
  | EFree i p (Some c) => non_posted (type_of (snd p)) = true /\ answers (snd c) (snd p)
  end.
Record inv (h : list pkt) (s : sw) : Prop := mkInv {
  v_len : length (sw_br s) = n;
  v_plain : Forall plain (sw_br s);
  v_good : Forall (fun p => good (snd p)) (h ++ in_ing n s ++ in_q n s);
  v_count : Permutation (map fst (h ++ all_pkts n s)) (List.seq 0 (sw_next s));
  v_made : map fst (flat_map made (rev (sw_log s))) = List.seq 0 (sw_next s);
  v_orig : Forall (fun p => exists t, In (fst p, t) (flat_map made (sw_log s)) /\ same_tlp t (snd p)) (h ++ all_pkts n s);
  v_log : Forall ev_ok (sw_log s)
}.
Lemma set_nth_length {A} i (v : A) l : length (set_nth i v l) = length l.
Proof.
  unfold set_nth. rewrite app_length, firstn_length. pose proof (skipn_length i l) as E. destruct (skipn i l); cbn [length] in *; lia.
Qed.
Lemma set_nth_forall {A} (P : A -> Prop) i v l : P v -> Forall P l -> Forall P (set_nth i v l).
Proof.
  intros V F. unfold set_nth. rewrite <- (firstn_skipn i l), Forall_app in F. destruct F as [F1 F2]. apply Forall_app. split; [exact F1|].
  destruct (skipn i l); [constructor|]. apply Forall_cons_iff in F2. constructor; [exact V|apply F2].
Qed.
Lemma inv_br h s i f : plain f -> inv h s -> inv h (sw_set_br i f s).
Proof.
  intros P [A B C D E F G]. constructor; try assumption; cbn [sw_set_br sw_br]; [rewrite set_nth_length; exact A|apply set_nth_forall; assumption].
Qed.
Lemma same_trans a b c : same_tlp a b -> same_tlp b c -> same_tlp a c.
Proof.
  intros [->|[-> A]] [->|[-> B]]; [left; reflexivity|right; tauto|right; tauto|]. exfalso. destruct A as [[_ A]|[_ A]], B as [[B _]|[B _]]; congruence.
Qed.
(** A permutation of the places changes nothing. *)
Lemma inv_move h h' s s' : inv h s -> sw_br s' = sw_br s -> sw_next s' = sw_next s -> sw_log s' = sw_log s ->
  Permutation (h' ++ in_ing n s' ++ in_q n s') (h ++ in_ing n s ++ in_q n s) -> inv h' s'.
Proof.
  intros [A B C D E F G] EB EN EL P.
  assert (Q : Permutation (h' ++ all_pkts n s') (h ++ all_pkts n s)).
  { unfold all_pkts. rewrite EL, !app_assoc. apply Permutation_app_tail. rewrite <- !app_assoc. exact P. }
  constructor; rewrite ?EB, ?EN, ?EL; try assumption.
  - rewrite P. exact C.
  - rewrite Q. exact D.
  - rewrite Q. exact F.
Qed.
Lemma inv_hand p p' h s : fst p' = fst p -> same_tlp (snd p) (snd p') -> good (snd p') -> inv (p :: h) s -> inv (p' :: h) s.
Proof.
  intros E1 E2 E3 [A B C D E F G]. constructor; try assumption; cbn [app map] in *.
  - apply Forall_cons_iff in C. constructor; [exact E3|apply C].
  - rewrite E1. exact D.
  - apply Forall_cons_iff in F. destruct F as [(t & I & S) F]. constructor; [|exact F]. exists t. rewrite E1. split; [exact I|exact (same_trans _ _ _ S E2)].
Qed.
(** The TLP in hand leaves, perhaps leaving an answer in hand. *)
Lemma inv_leave p h s e c : gone e = [p] -> made e = [] -> ev_ok e -> c = [] -> inv (p :: h) s -> inv (c ++ h) (sw_note e s).
Proof.
  intros Ge Me Oe -> [A B C D E F G]. cbn [app] in *.
  assert (Q : Permutation (h ++ all_pkts n (sw_note e s)) (p :: h ++ all_pkts n s)).
  { unfold all_pkts. cbn [sw_note sw_log flat_map]. rewrite Ge. change (in_ing n (sw_note e s)) with (in_ing n s). change (in_q n (sw_note e s)) with (in_q n s).
    cbn [app]. rewrite !app_assoc. symmetry. apply Permutation_cons_app. reflexivity. }
  constructor; cbn [sw_note sw_br sw_next sw_log]; try assumption.
  - apply Forall_cons_iff in C. apply C.
  - rewrite Q. exact D.
  - cbn [rev]. rewrite flat_map_app, map_app. cbn [flat_map]. rewrite Me. cbn [app map]. rewrite app_nil_r. exact E.
  - rewrite Q. cbn [flat_map]. rewrite Me. exact F.
  - constructor; assumption.
Qed.
Lemma inv_answer p h s i c : non_posted (type_of (snd p)) = true -> answers c (snd p) -> inv (p :: h) s ->
  inv ((sw_next s, c) :: h) (sw_fresh (sw_note (EFree i p (Some (sw_next s, c))) s)).
Proof.
  intros NP An [A B C D E F G]. set (e := EFree i p (Some (sw_next s, c))) in *. cbn [app] in *.
  assert (Q : Permutation (((sw_next s, c) :: h) ++ all_pkts n (sw_fresh (sw_note e s))) ((sw_next s, c) :: p :: h ++ all_pkts n s)).
  { cbn [app]. apply perm_skip. unfold all_pkts. cbn [sw_fresh sw_note sw_log flat_map gone]. change (gone e) with [p].
    change (in_ing n (sw_fresh (sw_note e s))) with (in_ing n s). change (in_q n (sw_fresh (sw_note e s))) with (in_q n s).
    cbn [app]. rewrite !app_assoc. symmetry. apply Permutation_cons_app. reflexivity. }
  constructor; cbn [sw_fresh sw_note sw_br sw_next sw_log]; try assumption.
  - apply Forall_cons_iff in C. constructor; [apply An|apply C].
  - rewrite Q. cbn [map fst]. rewrite seq_S. cbn [plus]. rewrite <- Permutation_cons_append. apply perm_skip. exact D.
  - cbn [rev]. rewrite flat_map_app, map_app. etransitivity; [apply (f_equal (fun l => l ++ _)); exact E|]. rewrite seq_S. reflexivity.
  - rewrite Q. cbn [flat_map made e app]. constructor; [exists c; split; [left; reflexivity|left; reflexivity]|].
    eapply Forall_impl; [|exact F]. intros x (t & I & S). exists t. split; [right; exact I|exact S].
  - constructor; [split; assumption|exact G].
Qed.
Lemma inv_enter h s i t : good t -> inv h s -> inv ((sw_next s, t) :: h) (sw_fresh (sw_note (EIn i (sw_next s, t)) s)).
Proof.
  intros Gt [A B C D E F G]. set (e := EIn i (sw_next s, t)) in *.
  assert (Q : Permutation (((sw_next s, t) :: h) ++ all_pkts n (sw_fresh (sw_note e s))) ((sw_next s, t) :: h ++ all_pkts n s)) by reflexivity.
  constructor; cbn [sw_fresh sw_note sw_br sw_next sw_log]; try assumption.
  - cbn [app]. constructor; assumption.
  - rewrite Q. cbn [map fst]. rewrite seq_S. cbn [plus]. rewrite <- Permutation_cons_append. apply perm_skip. exact D.
  - cbn [rev]. rewrite flat_map_app, map_app. etransitivity; [apply (f_equal (fun l => l ++ _)); exact E|]. rewrite seq_S. reflexivity.
  - rewrite Q. cbn [flat_map made e app]. constructor; [exists t; split; [left; reflexivity|left; reflexivity]|].
    eapply Forall_impl; [|exact F]. intros x (t' & I & S). exists t'. split; [right; exact I|exact S].
  - constructor; assumption.
Qed.
Lemma inv_emit i d p h s : (i < n)%nat -> inv (p :: h) s -> inv h (emit i d p s).
Proof.
  intros I V.
  assert (P1 : inv h (sw_put_ing i p s)).
  { eapply inv_move; [exact V|reflexivity|reflexivity|reflexivity|]. change (in_q n (sw_put_ing i p s)) with (in_q n s). rewrite (ing_put i p s I).
    cbn [app]. symmetry. apply Permutation_cons_app. reflexivity. }
  assert (P2 : inv h (sw_note (EOut i p) s)) by (apply (inv_leave p h s _ []); [reflexivity|reflexivity|exact Logic.I|reflexivity|exact V]).
  unfold emit. destruct d, (is_up i); assumption.
Qed.
Lemma got_inv i d p f s s' h : (i < n)%nat -> inv (p :: h) s -> got i d p f s s' -> inv h s'.
Proof.
  intros I V [f' t' [K _] S Gt _ _|f' [K _] NP|f' c [K _] NP An|f' [K _] C].
  - apply inv_emit; [exact I|]. apply (inv_hand p); [reflexivity|exact S|exact Gt|]. apply inv_br; assumption.
  - apply (inv_leave p h _ _ []); [reflexivity|reflexivity|exact NP|reflexivity|]. apply inv_br; assumption.
  - unfold emit_new. apply inv_emit; [exact I|]. change (sw_next (sw_note ?e ?s)) with (sw_next s).
    apply (inv_answer p h (sw_set_br i f' s) i c NP An). apply inv_br; assumption.
  - apply (inv_leave p h _ _ []); [reflexivity|reflexivity|exact C|reflexivity|]. apply inv_br; assumption.
Qed.
End Count.
