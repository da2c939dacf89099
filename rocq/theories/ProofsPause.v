(** Pauses (C73). *)
From Verif Require Import Base ModelPause SpecPause.
From Coq Require Import Lia.

Lemma h_run_app a b s : h_run (a ++ b) s = h_run b (h_run a s).
Proof. apply fold_left_app. Qed.
Lemma repeat_snoc {A} (x : A) n : repeat x (S n) = repeat x n ++ [x].
Proof. induction n as [|n IH]; [reflexivity|]. cbn [repeat app] in *. f_equal. exact IH. Qed.
Lemma turns g n : forall s, h_gen s = Some (g, O) -> gives g n -> h_gen (h_run (repeat PTurn n) s) = Some (g, n) /\ (forall k, n = S k -> g k = Some (h_pause (h_run (repeat PTurn n) s))).
Proof.
  induction n as [|n IH]; intros s G V.
  - split; [exact G|discriminate].
  - destruct (IH s G ltac:(intros k K; apply V; lia)) as [A _]. rewrite repeat_snoc, h_run_app. cbn [h_run fold_left h_step].
    unfold h_run in A. unfold h_run. rewrite A. destruct (g n) as [v|] eqn:E; [|destruct (V n ltac:(lia) E)]. cbn. split; [reflexivity|]. intros k K. injection K as <-. exact E.
Qed.
Theorem follows g n s v : gives g (S n) -> g n = Some v -> h_pause (h_run (PGen (Some g) :: repeat PTurn (S n)) s) = v.
Proof.
  intros V E. change (h_run (PGen (Some g) :: repeat PTurn (S n)) s) with (h_run (repeat PTurn (S n)) (h_step (PGen (Some g)) s)).
  destruct (turns g (S n) (h_step (PGen (Some g)) s) eq_refl V) as [_ B]. specialize (B n eq_refl). congruence.
Qed.
Lemma no_gen n : forall s, h_gen s = None -> h_run (repeat PTurn n) s = s.
Proof. induction n as [|n IH]; intros s G; [reflexivity|]. cbn [repeat h_run fold_left h_step]. rewrite G. exact (IH s G). Qed.
Theorem cleared n s : h_pause (h_run (PGen None :: repeat PTurn n) s) = h_pause s.
Proof. change (h_pause (h_run (repeat PTurn n) (h_step (PGen None) s)) = h_pause s). rewrite no_gen; reflexivity. Qed.
Theorem ended g n m s v : gives g (S n) -> g n = Some v -> g (S n) = None -> h_pause (h_run (PGen (Some g) :: repeat PTurn (S n) ++ repeat PTurn (S m)) s) = v.
Proof.
  intros V E N. pose proof (follows g n s v V E) as F. change (PGen (Some g) :: repeat PTurn (S n) ++ repeat PTurn (S m)) with ((PGen (Some g) :: repeat PTurn (S n)) ++ repeat PTurn (S m)).
  rewrite h_run_app. change (h_run (PGen (Some g) :: repeat PTurn (S n)) s) with (h_run (repeat PTurn (S n)) (h_step (PGen (Some g)) s)) in *.
  destruct (turns g (S n) (h_step (PGen (Some g)) s) eq_refl V) as [A _]. set (t := h_run (repeat PTurn (S n)) (h_step (PGen (Some g)) s)) in *. clearbody t.
  change (h_pause (h_run (repeat PTurn m) (h_step PTurn t)) = v). cbn [h_step]. rewrite A, N. rewrite no_gen by reflexivity. exact F.
Qed.
(** Each change of [pause] is told, and nothing else. *)
Lemma wake_step e s : h_wakes (h_step e s) = (h_wakes s + (if Bool.eqb (h_pause s) (h_pause (h_step e s)) then 0 else 1))%nat.
Proof.
  destruct e as [b|g|]; cbn [h_step].
  - unfold h_set. cbn. destruct (Bool.eqb (h_pause s) b); lia.
  - cbn. rewrite Bool.eqb_reflx. lia.
  - destruct (h_gen s) as [[g k]|]; [|rewrite Bool.eqb_reflx; lia]. destruct (g k) as [v|]; cbn; [destruct (Bool.eqb (h_pause s) v)|rewrite Bool.eqb_reflx]; lia.
Qed.
Theorem wakes es : forall s, h_wakes (h_run es s) = (h_wakes s + changes (h_pause s) (pauses es s))%nat.
Proof.
  induction es as [|e es IH]; intros s; [cbn; lia|]. change (h_run (e :: es) s) with (h_run es (h_step e s)). rewrite IH, wake_step. cbn [pauses changes]. lia.
Qed.
