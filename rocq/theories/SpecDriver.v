(** What the driver functions should do with a tree of functions. *)
From Verif Require Import Base ModelUtils ModelTlp ModelAttrs ModelCaps ModelCapList ModelConfig ModelFunction ModelPciCaps ModelDriver SpecRegs SpecConfig SpecHost SpecPciCaps.

(** Value of a register; the command register is the lower half of register 1. *)
Definition value (rd : fnc -> Z -> res (option Z)) (f : fnc) (r : Z) : Z := match rd f r with Ok (Some v) => v | _ => 0 end.
Definition command (nd : nat -> node) (F : nat -> fnc) (k : nat) : Z := value (n_rd (nd k)) (F k) 1.
Definition decodes (c : Z) : Prop := Z.testbit c 0 = true /\ Z.testbit c 1 = true.
(** All registers but [r] read as before (those of capability classes of the user aside). *)
Definition others_kept (rd : fnc -> Z -> res (option Z)) (ms : fnc -> Z -> option (Z * Z * Z)) (r : Z) (f f' : fnc) : Prop :=
  forall r' v m, r' <> r -> rd f r' = Ok (Some v) -> ms f r' = Some m -> rd f' r' = Ok (Some v) /\ ms f' r' = Some m.
(** The bit field at [b] of width [w] of [v], replaced by [x]. *)
Definition with_field (b w x v : Z) : Z := v - v mod 2 ^ (b + w) + v mod 2 ^ b + x * 2 ^ b.
(** Device status after a write to the register that shares it with device control: a write of one clears error bits and bit 6. *)
Definition status_after (written : bool) (s : Z) : Z := if written then Z.ldiff s 0x4f else s.

(** [above k]: the bridges above function [k], the nearest first. *)
Definition tree_ok (above : nat -> list nat) : Prop := forall k p l, above k = p :: l -> above p = l.
Definition node_ok (n : node) : Prop := exists ms, In (n_rd n, n_wr n, ms) cfg_kinds.
(** Every function has the device and function number that it is addressed with. *)
Definition placed_ok (nd : nat -> node) (F : nat -> fnc) : Prop :=
  forall k, device (f_id (F k)) = device (n_id (nd k)) /\ func (f_id (F k)) = func (n_id (nd k)).
(** Other configuration writes do not touch command and status. *)
Definition op_ok (o : dop) : Prop :=
  match o with Config _ addr data => bytes_ok data /\ (addr + zlen data <= 4 \/ 8 <= addr) | _ => True end.
Definition is_config (o : dop) : bool := match o with Config _ _ _ => true | _ => false end.
Definition op_node (o : dop) : nat := match o with Enable k | Disable k | Master _ k | Config k _ _ => k end.
(** How often a function has been enabled and not disabled again; whether it should be bus master, from [b] on. *)
Fixpoint net (k : nat) (n : Z) (ops : list dop) : Z :=
  match ops with
  | [] => n
  | Enable j :: ops => net k (if Nat.eqb j k then n + 1 else n) ops
  | Disable j :: ops => net k (if Nat.eqb j k then n - 1 else n) ops
  | _ :: ops => net k n ops
  end.
Fixpoint mastering (k : nat) (n : Z) (b : bool) (ops : list dop) : bool :=
  match ops with
  | [] => b
  | Enable j :: ops => mastering k (if Nat.eqb j k then n + 1 else n) b ops
  | Disable j :: ops => if Nat.eqb j k then mastering k (n - 1) (if 1 <? n then b else false) ops else mastering k n b ops
  | Master x j :: ops => mastering k n (if Nat.eqb j k then x else b) ops
  | Config _ _ _ :: ops => mastering k n b ops
  end.
