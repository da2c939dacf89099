(** C73: pauses and their generators. *)
From Verif Require Import Base ModelPause SpecPause ProofsPause.

(** After a generator is set, whatever was before, [pause] is its first value at the start of the coroutine and the next one after each edge of the clock. *)
Theorem C73_follows : forall g n s v, gives g (S n) -> g n = Some v -> h_pause (h_run (PGen (Some g) :: repeat PTurn (S n)) s) = v.
Proof. exact follows. Qed.
(** When it has ended, its last value stays, for ever ... *)
Theorem C73_ended : forall g n m s v, gives g (S n) -> g n = Some v -> g (S n) = None -> h_pause (h_run (PGen (Some g) :: repeat PTurn (S n) ++ repeat PTurn (S m)) s) = v.
Proof. exact ended. Qed.
(** ... and so does the value at which it is cleared. *)
Theorem C73_cleared : forall n s, h_pause (h_run (PGen None :: repeat PTurn n) s) = h_pause s.
Proof. exact cleared. Qed.
(** A sink is woken once for each change of [pause], whoever changes it. *)
Theorem C73_wakes : forall es s, h_wakes (h_run es s) = (h_wakes s + changes (h_pause s) (pauses es s))%nat.
Proof. exact wakes. Qed.
(** On, on, off, and so on, for ever; and the same for five values *)
Definition cyc : generator := fun k => Some (negb (Nat.eqb (Nat.modulo k 3) 2)).
Definition five : generator := fun k => if Nat.ltb k 5 then cyc k else None.
Definition px : list plabel := [PSet true; PGen (Some cyc); PTurn; PTurn; PTurn; PTurn].
Example C73_ex : gives cyc 100 /\ gives five 5 /\ five 4%nat = Some true /\ five 5%nat = None /\ pauses px psm0 = [true; true; true; true; false; true] /\ h_wakes (h_run px psm0) = 3%nat /\
  pauses [PTurn; PTurn; PTurn] (h_run (PGen (Some five) :: repeat PTurn 4) psm0) = [true; true; true].
Proof.
  split; [discriminate|]. split; [|vm_compute; repeat split]. intros k K. unfold five. replace (Nat.ltb k 5) with true; [discriminate|]. symmetry. apply Nat.ltb_lt. exact K.
Qed.
(** So clearing a generator does not lift the pause: the stream may stand still from then on. *)
Theorem C73_clear_refuted : exists g m s, h_pause s = false /\ forall n, h_pause (h_run (PGen (Some g) :: repeat PTurn (S m) ++ PGen None :: repeat PTurn n) s) = true.
Proof.
  exists cyc, 0%nat, psm0. split; [reflexivity|]. intros n. change (PGen (Some cyc) :: repeat PTurn 1 ++ PGen None :: repeat PTurn n) with ([PGen (Some cyc); PTurn] ++ PGen None :: repeat PTurn n).
  rewrite h_run_app, cleared. reflexivity.
Qed.

Print Assumptions C73_follows.
Print Assumptions C73_ended.
Print Assumptions C73_cleared.
Print Assumptions C73_wakes.
Print Assumptions C73_clear_refuted.
