(** Vocabulary for the reset outputs. *)
From Verif Require Import Base ModelReset.

Definition clocks (es : list rev) : Z := zlen (filter (fun e => match e with Clk => true | _ => false end) es).
Definition time (es : list rev) : Z := fold_right (fun e t => match e with Pass n => n + t | _ => t end) 0 es.
(** Time passes forwards. *)
Definition forwards (es : list rev) : Prop := forall n, In (Pass n) es -> 0 <= n.
(** How long the input has been high at the end; 0 if it is not.  [i]: its value at the beginning. *)
Definition high_step (x : bool * Z) (e : rev) : bool * Z :=
  let '(i, t) := x in
  match e with Rise => (true, if i then t else 0) | Fall => (false, 0) | Pass n => (i, if i then t + n else 0) | Clk => x end.
Definition high_for (i : bool) (es : list rev) : Z := snd (fold_left high_step es (i, 0)).
(** Every low pulse of the input has a clock edge.  State: the input, and whether there has been one since it fell *)
Definition pulse_step (x : option (bool * bool)) (e : rev) : option (bool * bool) :=
  match x with
  | None => None
  | Some (i, c) => match e with Rise => if i || c then Some (true, false) else None | Fall => Some (false, if i then false else c) | Clk => Some (i, true) | Pass _ => x end
  end.
Definition long_pulses (i : bool) (es : list rev) : Prop := fold_left pulse_step es (Some (i, true)) <> None.
