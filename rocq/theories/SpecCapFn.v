(** The capabilities of a function under every sequence of registrations, deregistrations and
    configuration writes. *)
From Verif Require Import Base ModelUtils ModelAttrs ModelCaps ModelCapList ModelConfig ModelFunction SpecRegs SpecCapList.

Inductive fop :=
| FReg (i : nat) (o : option Z) | FDereg (i : nat)        (** [register_capability], [deregister_capability] *)
| FRegX (i : nat) (o : option Z) | FDeregX (i : nat)      (** the same for extended capabilities *)
| FWrite (reg data mask : Z).                             (** a configuration write *)
Definition fstep (wr : Z -> Z -> Z -> fnc -> fnc) (op : fop) (f : fnc) : res fnc :=
  match op with
  | FReg i o => Ok (fn_register_capability i o f)
  | FDereg i => Ok (fn_deregister_capability i f)
  | FRegX i o => fn_register_extended_capability i o f
  | FDeregX i => Ok (fn_deregister_extended_capability i f)
  | FWrite reg data mask => Ok (wr reg data mask f)
  end.
Fixpoint frun (wr : Z -> Z -> Z -> fnc -> fnc) (ops : list fop) (f : fnc) : res fnc :=
  match ops with [] => Ok f | op :: r => f <- fstep wr op f ;; frun wr r f end.

(** The configuration space of the three kinds of function. *)
Definition spaces : list ((fnc -> Z -> res (option Z)) * (Z -> Z -> Z -> fnc -> fnc)) :=
  [(fn_read, fn_write); (ep_read, ep_write); (br_read, br_write)].

(** A function without capabilities; the capability objects have not been used yet. *)
Definition fresh (f : fnc) : Prop :=
  f_caps f = [] /\ f_ecaps f = [] /\ f_attr f fn_capabilities_ptr = 0 /\
  forall i, c_off (f_heap f i) = None /\ c_next (f_heap f i) = 0 /\ 0 < c_len (f_heap f i).
(** Extended capabilities are not registered as other ones. *)
Definition typed (f : fnc) (ops : list fop) : Prop :=
  forall i o, In (FReg i o) ops -> is_ext (c_kind (f_heap f i)) = false.

Definition caps_of (ext : bool) (f : fnc) : list nat := if ext then f_ecaps f else f_caps f.
(** The last operation on [i] was its registration. *)
Definition listed1 (ext : bool) (i : nat) (b : bool) (op : fop) : bool :=
  match ext, op with
  | false, FReg j _ | true, FRegX j _ => if Nat.eqb j i then true else b
  | false, FDereg j | true, FDeregX j => if Nat.eqb j i then false else b
  | _, _ => b
  end.
Definition listed (ext : bool) (ops : list fop) (i : nat) : bool := fold_left (listed1 ext i) ops false.
Definition is_dereg (ext : bool) (op : fop) : bool :=
  match ext, op with false, FDereg _ | true, FDeregX _ => true | _, _ => false end.
(** Every automatically chosen range along the way [fits]. *)
Fixpoint fits_along (ext : bool) (wr : Z -> Z -> Z -> fnc -> fnc) (ops : list fop) (f : fnc) : Prop :=
  match ops with
  | [] => True
  | op :: r =>
    match ext, op with
    | false, FReg i o => register_fits (caps_start false) i o (f_heap f) (f_caps f)
    | true, FRegX i o => register_fits (caps_start true) i o (f_heap f) (f_ecaps f)
    | _, _ => True
    end /\
    match fstep wr op f with Ok f => fits_along ext wr r f | Err _ => True end
  end.

(** What configuration software does: read the word at the pointer (a byte address), take the next pointer from it,
    stop at 0; the registers visited. *)
Fixpoint walk (fuel : nat) (read : Z -> res (option Z)) (next : Z -> Z) (ptr : Z) : option (list Z) :=
  match fuel with
  | O => None
  | S n =>
    if ptr =? 0 then Some []
    else match read (ptr / 4) with
         | Ok (Some v) => option_map (cons (ptr / 4)) (walk n read next (next v))
         | _ => None
         end
  end.
(** Bits 15:8 of the header of a capability, bits 31:20 of that of an extended one. *)
Definition next_legacy (v : Z) : Z := slice v 8 8.
Definition next_ext (v : Z) : Z := slice v 20 12.
(** PCI 6.7: starting with the capabilities pointer at 0x34. *)
Definition walk_caps (fuel : nat) (read : Z -> res (option Z)) : option (list Z) :=
  match read (0x34 / 4) with Ok (Some p) => walk fuel read next_legacy p | _ => None end.
(** PCIe 7.6: starting at 0x100; there is nothing if the word there is 0. *)
Definition walk_ext (fuel : nat) (read : Z -> res (option Z)) : option (list Z) :=
  match read (0x100 / 4) with Ok (Some 0) => Some [] | _ => walk fuel read next_ext 0x100 end.
(** All registrations in the list are without offset. *)
Definition auto_only (ext : bool) (ops : list fop) : Prop :=
  (forall i o, In (if ext then FRegX i o else FReg i o) ops -> o = None) /\ existsb (is_dereg ext) ops = false.
(** The header of a capability can be read; all classes of the library satisfy this. *)
Definition headed (c : cap) : Prop := is_ext (c_kind c) = true \/ forall s, kind_read (c_kind c) s 0 <> None.
(** Where ranges of these lengths lie if they follow one another from [start] on. *)
Fixpoint positions (start : Z) (lens : list Z) : list Z :=
  match lens with [] => [] | n :: r => start :: positions (start + n) r end.
Definition total (lens : list Z) : Z := fold_right Z.add 0 lens.
