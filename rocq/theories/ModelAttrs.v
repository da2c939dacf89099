(** Python objects as maps from attribute names to integers. *)
From Verif Require Import Base.

(** Attribute names; [False] and [True] are 0 and 1. *)
Definition attr := positive.
Definition attrs := attr -> Z.
(** [self.k = v] *)
Definition aset (k : attr) (v : Z) (s : attrs) : attrs := fun x => if Pos.eqb x k then v else s x.
(** [if c: self.k = False] *)
Definition aclear (k : attr) (c : bool) (s : attrs) : attrs :=
  fun x => if Pos.eqb x k then (if c then 0 else s x) else s x.
(** [if c: t else: e], pointwise *)
Definition when (c : bool) (t e : attrs) : attrs := fun x => if c then t x else e x.
(** The truth value of [d & (1 << k)]. *)
Definition bit (d k : Z) : bool := zbool (Z.land d (Z.shiftl 1 k)).
