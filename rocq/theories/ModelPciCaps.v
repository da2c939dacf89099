(** core/pci.py: the capabilities of a function as the host finds them.  Configuration reads and writes are given by [cr] and
    [cw], as in ModelPci.v. *)
From Verif Require Import Base ModelUtils ModelPci.

Section Access.
Context {S : Type} (cr : Z -> Z -> S -> res (S * list Z)) (cw : Z -> list Z -> S -> res S).
(** core/pci.py:433-434 *)
Definition cfg_read_byte (addr : Z) (s : S) : res (S * Z) :=
  '(s, d) <- cr addr 1 s ;; match d with x :: _ => Ok (s, x) | [] => Err IndexError end.
(** core/pci.py:686-697; [l]: the list [capabilities].  The loop of the code need not end: [OutOfFuel] if it does not end within
    [fuel] rounds. *)
Fixpoint walk_list (fuel : nat) (ptr : Z) (l : list (Z * Z)) (s : S) : res (S * list (Z * Z)) :=
  match fuel with
  | O => Err OutOfFuel
  | Datatypes.S fuel =>
    if ptr >? 0 then
      '(s, val) <- cr ptr 2 s ;;
      match val with
      | v0 :: v1 :: _ => walk_list fuel (Z.land v1 0xfc) (l ++ [(v0, ptr)]) s
      | _ => Err IndexError
      end
    else Ok (s, l)
  end.
(** core/pci.py:699-714; [l]: the list [ext_capabilities] *)
Fixpoint walk_ext_list (fuel : nat) (ptr : Z) (l : list (Z * Z)) (s : S) : res (S * list (Z * Z)) :=
  match fuel with
  | O => Err OutOfFuel
  | Datatypes.S fuel =>
    if ptr >? 0 then
      '(s, val) <- cfg_read_dword cr ptr s ;;
      if (val =? 0) || (val =? 0xffffffff) then Ok (s, l)
      else walk_ext_list fuel (Z.land (Z.shiftr val 20) 0xffc) (l ++ [(Z.land val 0xffff, ptr)]) s
    else Ok (s, l)
  end.
(** [PciDevice.capabilities] and [ext_capabilities], with [PciCapId] and [PciExtCapId] as keys. *)
Record found := mkFound { found_caps : list (Z * Z); found_ext : list (Z * Z) }.
Inductive cap_key := CapId (id : Z) | ExtCapId (id : Z).
(** core/pci.py:678-714; the lists are empty at first (core/pci.py:340-341) *)
Definition walk_capabilities (fuel : nat) (s : S) : res (S * found) :=
  '(s, ptr) <- cfg_read_byte 0x34 s ;;
  '(s, l) <- walk_list fuel (Z.land ptr 0xfc) [] s ;;
  '(s, x) <- walk_ext_list fuel 0x100 [] s ;;
  Ok (s, mkFound l x).
(** core/pci.py:406-415 *)
Definition lookup (id : Z) (l : list (Z * Z)) : option Z := option_map snd (find (fun c => fst c =? id) l).
Definition get_capability_offset (k : cap_key) (p : found) : option Z :=
  match k with CapId id => lookup id (found_caps p) | ExtCapId id => lookup id (found_ext p) end.
(** core/pci.py:473-479; offset 0 counts as not found *)
Definition cap_offset (k : cap_key) (p : found) : res Z :=
  match get_capability_offset k p with Some o => if o =? 0 then Err PyException else Ok o | None => Err PyException end.
Definition capability_read (p : found) (k : cap_key) (addr n : Z) (s : S) : res (S * list Z) :=
  o <- cap_offset k p ;; cr (addr + o) n s.
(** core/pci.py:506-512 *)
Definition capability_write (p : found) (k : cap_key) (addr : Z) (d : list Z) (s : S) : res S :=
  o <- cap_offset k p ;; cw (addr + o) d s.
(** core/pci.py:481-486, 497-501, for one word *)
Definition cap_read_word (p : found) (k : cap_key) (addr : Z) (s : S) : res (S * Z) :=
  '(s, d) <- capability_read p k addr 2 s ;; Ok (s, from_le d).
Definition cap_read_dword (p : found) (k : cap_key) (addr : Z) (s : S) : res (S * Z) :=
  '(s, d) <- capability_read p k addr 4 s ;; Ok (s, from_le d).
(** core/pci.py:392-396, 668-673: [None] if [is_pcie] is false, otherwise [pcie_type] and [pcie_mpss] *)
Definition setup_pcie (p : found) (s : S) : res (S * option (Z * Z)) :=
  match get_capability_offset (CapId 0x10) p with
  | Some o =>
    if o =? 0 then Ok (s, None)
    else
      '(s, reg) <- cap_read_word p (CapId 0x10) 2 s ;;
      '(s, devcap) <- cap_read_dword p (CapId 0x10) 4 s ;;
      Ok (s, Some (Z.land (Z.shiftr reg 4) 0xf, Z.land devcap 7))
  | None => Ok (s, None)
  end.
End Access.
