(** Shared vocabulary of the model: exceptions as values, byte strings, [struct]. *)
From Coq Require Export ZArith List Bool Lia.
From Coq Require Export ZifyBool ZifyNat.
Export ListNotations.
Global Open Scope Z_scope.

(** Python exceptions that the modelled code can raise, as values.
    [PyException] is a plain [raise Exception(...)]; [OutOfFuel] never corresponds to Python
    behaviour: it marks an exhausted recursion bound and every theorem excludes it. *)
Inductive exn :=
| StructError | ValueError | TypeError | KeyError | IndexError | AssertError
| AttributeError | OverflowError | TimeoutError | PyException | OutOfFuel.

Inductive res (A : Type) := Ok (a : A) | Err (e : exn).
Arguments Ok {A}. Arguments Err {A}.

Definition bind {A B} (x : res A) (f : A -> res B) : res B :=
  match x with Ok a => f a | Err e => Err e end.
Notation "x <- a ;; b" := (bind a (fun x => b)) (at level 61, a at next level, right associativity).
Notation "' p <- a ;; b" := (bind a (fun p => b)) (at level 61, p pattern, a at next level, right associativity).

Definition is_ok {A} (x : res A) : bool := match x with Ok _ => true | Err _ => false end.

(** Python [assert]. *)
Definition py_assert (b : bool) : res unit := if b then Ok tt else Err AssertError.

(** Python [bool(x)] on an integer. *)
Definition zbool (x : Z) : bool := negb (x =? 0).

(** [len] as an integer. *)
Definition zlen {A} (l : list A) : Z := Z.of_nat (length l).

(** Bytes: integers in [0,256). *)
Definition byte_ok (b : Z) : Prop := 0 <= b < 256.
Definition bytes_ok (l : list Z) : Prop := Forall byte_ok l.
Definition byte_okb (b : Z) : bool := (0 <=? b) && (b <? 256).
Definition bytes_okb (l : list Z) : bool := forallb byte_okb l.

(** n bytes of v, least significant first; the value of such a list. These stand for
    [int.to_bytes]/[int.from_bytes] and the [struct] integer codes. *)
Fixpoint le_bytes (n : nat) (v : Z) : list Z :=
  match n with O => [] | S m => (v mod 256) :: le_bytes m (v / 256) end.
Fixpoint from_le (l : list Z) : Z :=
  match l with [] => 0 | b :: r => b + 256 * from_le r end.
Definition be_bytes (n : nat) (v : Z) : list Z := rev (le_bytes n v).
Definition from_be (l : list Z) : Z := from_le (rev l).

(** [bytearray(n)] *)
Definition zeros (n : nat) : list Z := repeat 0 n.

(** [struct.pack] of one unsigned n-byte integer, big ('>') or little ('<') endian: raises
    [struct.error] if out of range. *)
Definition struct_pack_be (n : nat) (v : Z) : res (list Z) :=
  if (0 <=? v) && (v <? 256 ^ Z.of_nat n) then Ok (be_bytes n v) else Err StructError.
Definition struct_pack_le (n : nat) (v : Z) : res (list Z) :=
  if (0 <=? v) && (v <? 256 ^ Z.of_nat n) then Ok (le_bytes n v) else Err StructError.

(** [struct.unpack_from] of one unsigned n-byte integer at offset [off]: raises if the buffer is
    too short. *)
Definition struct_unpack_be (n : nat) (pkt : list Z) (off : nat) : res Z :=
  if (off + n <=? length pkt)%nat then Ok (from_be (firstn n (skipn off pkt))) else Err StructError.
Definition struct_unpack_le (n : nat) (pkt : list Z) (off : nat) : res Z :=
  if (off + n <=? length pkt)%nat then Ok (from_le (firstn n (skipn off pkt))) else Err StructError.
