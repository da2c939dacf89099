(** Base address registers (PCI 6.2.5.1). *)
From Verif Require Import Base ModelAttrs ModelConfig.

(** Kinds: IO; memory, with a 64-bit address or not, prefetchable or not. *)
Inductive bkind := BIo | BMem (wide pf : bool).
Definition type_bits (k : bkind) : Z :=
  match k with BIo => 1 | BMem wide pf => (if wide then 4 else 0) + (if pf then 8 else 0) end.
Definition is_wide (k : bkind) : bool := match k with BMem true _ => true | _ => false end.
Definition is_io (k : bkind) : bool := match k with BIo => true | _ => false end.
Definition bwidth (k : bkind) : Z := if is_wide k then 64 else 32.
(** The size of a window is [2 ^ n]. *)
Definition size_ok (k : bkind) (n : Z) : Prop := (if is_io k then 2 else 4) <= n < bwidth k.
Definition base_ok (k : bkind) (n base : Z) : Prop := 0 <= base < 2 ^ bwidth k /\ base mod 2 ^ n = 0.
(** What the register (the two registers) of a BAR hold and which bits can be written. *)
Definition content (k : bkind) (base : Z) : Z := base + type_bits k.
Definition size_mask (k : bkind) (n : Z) : Z := 2 ^ bwidth k - 2 ^ n.
(** BAR [i] of [s] is of kind [k], has size [2 ^ n] and is at [base]. *)
Definition bar_at (s : attrs) (i : Z) (k : bkind) (n base : Z) : Prop :=
  size_ok k n /\ base_ok k n base /\
  if is_wide k then
    s (fn_bar i) = content k base mod 2 ^ 32 /\ s (fn_bar (i + 1)) = content k base / 2 ^ 32 /\
    s (fn_bar_mask i) = size_mask k n mod 2 ^ 32 /\ s (fn_bar_mask (i + 1)) = size_mask k n / 2 ^ 32
  else s (fn_bar i) = content k base /\ s (fn_bar_mask i) = size_mask k n.
Definition slots (k : bkind) : Z := if is_wide k then 2 else 1.

(** A layout: the BARs in order, [None] for one that is not used. *)
Definition entry : Type := option (bkind * Z * Z).
Definition entry_slots (e : entry) : Z := match e with Some (k, _, _) => slots k | None => 1 end.
Fixpoint laid_out (s : attrs) (i : Z) (l : list entry) : Prop :=
  match l with
  | [] => True
  | None :: l => s (fn_bar i) = 0 /\ s (fn_bar_mask i) = 0 /\ laid_out s (i + 1) l
  | Some (k, n, base) :: l => bar_at s i k n base /\ laid_out s (i + slots k) l
  end.
Definition total_slots (l : list entry) : Z := fold_right (fun e a => entry_slots e + a) 0 l.
(** The windows with their BAR numbers. *)
Fixpoint windows (i : Z) (l : list entry) : list (Z * bkind * Z * Z) :=
  match l with
  | [] => []
  | None :: l => windows (i + 1) l
  | Some (k, n, base) :: l => (i, k, n, base) :: windows (i + slots k) l
  end.
Definition in_window (addr : Z) (w : Z * bkind * Z * Z) : Prop := let '(_, _, n, base) := w in base <= addr < base + 2 ^ n.
Definition of_kind (io : bool) (w : Z * bkind * Z * Z) : Prop := let '(_, k, _, _) := w in is_io k = io.

(** The functions with BARs: reading and writing registers, and the number of BARs. *)
Definition bar_kinds : list ((fnc -> Z -> res (option Z)) * (Z -> Z -> Z -> fnc -> fnc) * Z) :=
  [(ep_read, ep_write, 6); (br_read, br_write, 2)].
(** Writing a value to all bytes of a BAR, the lower half of a wide one first, and reading it. *)
Definition bar_write (wr : Z -> Z -> Z -> fnc -> fnc) (i : Z) (k : bkind) (v : Z) (f : fnc) : fnc :=
  if is_wide k then wr (5 + i) (v / 2 ^ 32) 15 (wr (4 + i) (v mod 2 ^ 32) 15 f) else wr (4 + i) v 15 f.
Definition bar_read (rd : fnc -> Z -> res (option Z)) (i : Z) (k : bkind) (f : fnc) : res (option Z) :=
  lo <- rd f (4 + i) ;;
  if is_wide k then
    hi <- rd f (5 + i) ;;
    Ok (match lo, hi with Some lo, Some hi => Some (lo + 2 ^ 32 * hi) | _, _ => None end)
  else Ok lo.
(** The same as the host probes it: also the address of the ROM register. *)
Definition rom_of (nb : Z) : Z := if nb =? 6 then 0x30 else 0x38.
(** A ROM of size [2 ^ a], at [base]; none if [a] is 32. *)
Definition rom_at (s : attrs) (a base : Z) : Prop :=
  11 <= a <= 32 /\ 0 <= base < 2 ^ 32 /\ base mod 2 ^ 11 = 0 /\ s fn_expansion_rom_addr = base /\ s fn_expansion_rom_addr_mask = 2 ^ 32 - 2 ^ a.
(** The unused BARs. *)
Fixpoint unused (i : Z) (l : list entry) : list Z :=
  match l with
  | [] => []
  | None :: l => i :: unused (i + 1) l
  | Some (k, _, _) :: l => unused (i + slots k) l
  end.
(** Windows below 4 GiB in size; address [addr] can be expressed in the BARs of that kind. *)
Definition small (w : Z * bkind * Z * Z) : Prop := let '(_, _, n, _) := w in n < 32.
Definition reaches (addr : Z) (io : bool) (w : Z * bkind * Z * Z) : Prop := let '(_, k, _, _) := w in is_io k = io -> addr < 2 ^ bwidth k.
(** No two windows of a kind overlap. *)
Definition windows_disjoint (io : bool) (l : list entry) : Prop := forall w w' addr, In w (windows 0 l) -> In w' (windows 0 l) ->
  of_kind io w -> of_kind io w' -> in_window addr w -> in_window addr w' -> w = w'.
(** The kind and size that a call of [configure_bar] asks for. *)
Definition kind_of (ext pf io : bool) : bkind := if io then BIo else BMem ext pf.
Definition size_of (k : bkind) (size : Z) : Z := Z.max (if is_io k then 2 else 4) (Z.log2_up size).
(** Two layouts with the same kinds and sizes and, as far as BARs of 32 bits go, the same bases. *)
Definition same_entry (e e' : entry) : Prop :=
  match e, e' with
  | Some (k, n, base), Some (k', n', base') => k' = k /\ n' = n /\ (is_wide k = false -> base' = base)
  | None, None => True
  | _, _ => False
  end.
