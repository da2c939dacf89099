(** What the host should find in the configuration space of a function. *)
From Verif Require Import Base ModelUtils ModelAttrs ModelCaps ModelCapList ModelConfig ModelFunction ModelPciCaps SpecRegs SpecCapList SpecCapFn.

(** Identifiers (8 bits, or 16 bits of an extended capability) and byte addresses of the registered capabilities. *)
Definition cap_ident (ext : bool) (c : cap) : Z := if ext then c_id c mod 65536 else c_id c mod 256.
Definition entries (ext : bool) (f : fnc) : list (Z * Z) :=
  map (fun i => (cap_ident ext (f_heap f i), 4 * off (f_heap f i))) (caps_of ext f).
Definition listing (f : fnc) : found := mkFound (entries false f) (entries true f).
Definition key (ext : bool) (id : Z) : cap_key := if ext then ExtCapId id else CapId id.

(** Histories after which the lists are right, see C25: nothing was deregistered, no range chosen was too short, and all
    capabilities lie in their space; an extended capability at 0x100, with identifiers other than 0. *)
Record orderly (wr : Z -> Z -> Z -> fnc -> fnc) (f0 : fnc) (ops : list fop) (f : fnc) : Prop := mkOrderly {
  ord_headed : forall i, headed (f_heap f0 i);
  ord_ids : forall i, c_id (f_heap f0 i) mod 65536 <> 0;
  ord_stay : forall ext, existsb (is_dereg ext) ops = false;
  ord_fits : forall ext, fits_along ext wr ops f0;
  ord_first : forall i, hd_error (f_ecaps f) = Some i -> off (f_heap f i) = 64;
  ord_place : forall i, In i (f_caps f) -> 16 <= off (f_heap f i) < 64;
  ord_place_ext : forall i, In i (f_ecaps f) -> off (f_heap f i) < 1024 }.

(** Byte [a] of the registers of a capability, [None] if it cannot be read. *)
Definition cap_byte (c : cap) (a : Z) : option Z :=
  match cap_read c (a / 4) with Ok (Some v) => Some ((v / 2 ^ (8 * (a mod 4))) mod 256) | _ => None end.
(** The registers [a / 4] to [(a + n - 1) / 4] belong to the capability and lie in the space for it. *)
Definition within_cap (ext : bool) (c : cap) (a n : Z) : Prop :=
  forall r, a / 4 <= r <= (a + n - 1) / 4 ->
    0 <= r < c_len c /\ (if ext then 64 <= off c + r < 1024 else 16 <= off c + r < 64).
(** A sequence of register writes (register of the capability, data, byte enables). *)
Definition cap_write_all (ws : list (Z * Z * Z)) (c : cap) : cap := fold_left (fun c '(reg, data, be) => cap_write reg data be c) ws c.
