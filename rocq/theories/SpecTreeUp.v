(** Who gets what a function sends. *)
From Verif Require Import Base ModelTree.

Fixpoint net_at (z : net) (q : list nat) : option net :=
  match q with
  | [] => Some z
  | k :: q => match z with Net _ _ l => match nth_error l k with Some c => net_at c q | None => None end end
  end.
(** From the function at [p] there is a way to the function at [q]: it is a bridge above, or the ways part inside a switch.  (No way: the function itself, what is below it, and the functions on the same link) *)
Fixpoint way (sw : bool) (p q : list nat) : bool :=
  match p, q with
  | [], _ => false
  | _ :: _, [] => true
  | k :: p, j :: q => if Nat.eqb k j then way (negb sw) p q else sw
  end.
