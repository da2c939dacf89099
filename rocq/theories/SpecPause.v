(** Vocabulary for pauses. *)
From Verif Require Import Base ModelPause.

(** The first [n] values of a generator are there. *)
Definition gives (g : generator) (n : nat) : Prop := forall k, (k < n)%nat -> g k <> None.
(** How often a list of values changes, beginning with [b] *)
Fixpoint changes (b : bool) (l : list bool) : nat := match l with [] => 0 | x :: r => ((if Bool.eqb b x then 0 else 1) + changes x r)%nat end.
(** The value of [pause] after each step *)
Fixpoint pauses (es : list plabel) (s : psm) : list bool := match es with [] => [] | e :: r => h_pause (h_step e s) :: pauses r (h_step e s) end.
