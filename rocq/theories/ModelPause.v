(** Pauses of the streams. *)
From Verif Require Import Base.

(** xilinx/us/interface.py:191-222, intel/s10/interface.py:280-298, intel/ptile/interface.py:306-324.  [h_pause]: [pause]; [h_gen]: the generator that [_run_pause] goes through and how many values it has taken
    ([None]: there is no such coroutine, or it has ended); [h_wakes]: how often [_pause_update] was called (only in xilinx/us, where it wakes a sink, 389-390).
    A generator gives a value for each number until it ends.  Not modelled: generators that raise; one generator used in two streams. *)
Definition generator := nat -> option bool.
Record psm := mkPsm { h_pause : bool; h_gen : option (generator * nat); h_wakes : nat }.
Definition psm0 : psm := mkPsm false None 0.
Inductive plabel :=
| PSet (b : bool)                  (** the user sets [pause] *)
| PGen (g : option generator)      (** [set_pause_generator], and [clear_pause_generator] with [None] *)
| PTurn.                           (** [_run_pause] starts, or sees an edge of the clock *)
(** us 195-202 *)
Definition h_set (b : bool) (s : psm) : psm := mkPsm b (h_gen s) (if Bool.eqb (h_pause s) b then h_wakes s else S (h_wakes s)).
Definition h_step (e : plabel) (s : psm) : psm :=
  match e with
  | PSet b => h_set b s
  | PGen g => mkPsm (h_pause s) (match g with Some g => Some (g, O) | None => None end) (h_wakes s)
  | PTurn => match h_gen s with
             | Some (g, k) => match g k with
                              | Some v => let s := h_set v s in mkPsm (h_pause s) (Some (g, S k)) (h_wakes s)
                              | None => mkPsm (h_pause s) None (h_wakes s)
                              end
             | None => s
             end
  end.
Definition h_run (es : list plabel) (s : psm) : psm := fold_left (fun s e => h_step e s) es s.
