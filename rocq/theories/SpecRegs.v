(** Register semantics of the PCI Local Bus and PCI Express specifications, independent of the model.

    A register is a 32 bit word.  Its bits are read/write (RW), write-1-to-clear (W1C) or read only. *)
From Verif Require Import Base ModelAttrs.

(** Bit [i] of a register after a write of [data] with byte enables [be]. *)
Definition upd_bit (rw w1c be data old i : Z) : bool :=
  if Z.testbit be (i / 8) then
    if Z.testbit rw i then Z.testbit data i
    else if Z.testbit w1c i then Z.testbit old i && negb (Z.testbit data i)
    else Z.testbit old i
  else Z.testbit old i.

(** A table of register masks; a register that is not listed has mask 0. *)
Fixpoint tab (l : list (Z * Z)) (r : Z) : Z :=
  match l with [] => 0 | (k, m) :: t => if r =? k then m else tab t r end.

(** Every write changes only the addressed register, and that one as its masks say.  The bits in [exc]
    are left out. *)
Definition writes_follow {S} (read : S -> Z -> option Z) (write : Z -> Z -> Z -> S -> S)
  (rw w1c exc : Z -> Z) : Prop :=
  forall s reg data be r v, 0 <= be < 16 -> read s r = Some v ->
  exists v', read (write reg data be s) r = Some v' /\
    if r =? reg then
      forall i, 0 <= i -> Z.testbit (exc r) i = false ->
        Z.testbit v' i = upd_bit (rw r) (w1c r) be data v i
    else v' = v.

(** The fields of a register: position, width and what is shown there. *)
Inductive shown := Num (a : attr) | Flag (a : attr) | Const (v : Z) | Part (a : attr) (lo : Z).
Record fld := Fld { lsb : Z; width : Z; what : shown }.
Definition slice (v lsb width : Z) : Z := (v / 2 ^ lsb) mod 2 ^ width.
Definition fval (s : attrs) (f : fld) : Z :=
  match what f with
  | Num a => s a mod 2 ^ width f
  | Flag a => if s a =? 0 then 0 else 1
  | Const v => v
  | Part a lo => (s a / 2 ^ lo) mod 2 ^ width f  (** the bits of [a] from [lo] on *)
  end.
(** The register shows its fields and is 0 in all other bits, leaving out what touches a bit in [exc]. *)
Definition shows (l : list fld) (exc : Z) (s : attrs) (v : Z) : Prop :=
  0 <= v < 2 ^ 32 /\
  (forall f, In f l -> (forall i, lsb f <= i < lsb f + width f -> Z.testbit exc i = false) ->
     slice v (lsb f) (width f) = fval s f) /\
  (forall i, 0 <= i -> (forall f, In f l -> ~ (lsb f <= i < lsb f + width f)) ->
     Z.testbit exc i = false -> Z.testbit v i = false).
