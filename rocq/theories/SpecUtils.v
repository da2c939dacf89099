(** Specification vocabulary for the utilities (independent of the model). *)
From Verif Require Import Base.

(** [r] is the least multiple of [k] that is not below [v]. *)
Definition least_multiple_above (k v r : Z) : Prop :=
  (k | r) /\ v <= r /\ forall m, (k | m) -> v <= m -> r <= m.

(** Byte [i] of an integer. *)
Definition byte_at (v i : Z) : Z := (v / 256 ^ i) mod 256.
