(** What a tree that the host has set up does with the TLPs of the host. *)
From Verif Require Import Base ModelUtils ModelTlp ModelAttrs ModelCapList ModelConfig ModelEnum ModelAssign SpecBar SpecRoute SpecEnum SpecAssign ModelTree.

(** ** Addresses *)
(** The allocations that are for BARs (the others are for ROMs), with the function *)
Definition is_bar (a : alloc) : bool := a_reg a <? 0x28.
Fixpoint bar_allocs (d : adev) : list (pfn * alloc) :=
  match d with
  | ADev p own sub => map (pair p) (filter is_bar own) ++ match sub with Some (_, kids) => flat_map bar_allocs kids | None => [] end
  end.
Definition io_kind (k : kind) : bool := match k with Io => true | _ => false end.
(** Address [x] of I/O or memory space is in the allocation. *)
Definition holds (io : bool) (x : Z) (a : alloc) : Prop := io_kind (a_kind a) = io /\ a_addr a <= x < a_addr a + a_size a.
(** A BAR of less than 4 GiB; and, if it has 32 bits, [x] has no more (else it may be taken for another address, see C21) *)
Definition decodes (io : bool) (x : Z) (a : alloc) : Prop := a_size a < 2 ^ 32 /\ (io_kind (a_kind a) = io -> x < 2 ^ 32 \/ length (a_dws a) = 2%nat).
(** The ranges that the host hands out for the two kinds of memory do not meet. *)
Definition apart (l l' : lims) : Prop := lim Mem l' < lim Pref l \/ lim Pref l' < lim Mem l.

(** ** Functions and registers *)
Definition kind_of_bar (k : bkind) : kind := match k with BIo => Io | BMem true true => Pref | BMem _ _ => Mem end.
(** A BAR as the function has it and as the host knows it: register, kind, whether it has 64 bits, address and size *)
Definition place (w : Z * bkind * Z * Z) : Z * kind * bool * Z * Z := let '(i, k, n, base) := w in (0x10 + 4 * i, kind_of_bar k, is_wide k, base, 2 ^ n).
Definition spot (a : alloc) : Z * kind * bool * Z * Z := (a_reg a, a_kind a, (length (a_dws a) =? 2)%nat, a_addr a, a_size a).
Definition bars_at (f : fnc) (nb : Z) (own : list alloc) : Prop :=
  exists lay, laid_out (f_attr f) 0 lay /\ total_slots lay = nb /\ map place (SpecBar.windows 0 lay) = map spot (filter is_bar own).
(** The registers of all functions hold what the host has assigned. *)
Fixpoint addressed (a : adev) (z : net) : Prop :=
  match a, z with
  | ADev p own sub, Net f br l =>
    f_id f = p_id p /\ bars_at f (net_bars br) own /\
    match sub with
    | None => br = false
    | Some (r, kids) => br = true /\ (forall k, SpecAssign.windows f k = window k r) /\
      (fix go (k : list adev) (l : list net) : Prop := match k, l with [], [] => True | a :: k, z :: l => addressed a z /\ go k l | _, _ => False end) kids l
    end
  end.
(** The numbers of all functions and the bus numbers of all bridges are those of the enumerated tree [y], which is on bus [n].  *)
Fixpoint numbered (n : Z) (y : hw) (z : net) : Prop :=
  match y, z with
  | Hw x l, Net f br l' =>
    f_id f = mkId n (h_d x) (h_f x) /\ br = is_bridge x /\ (exists lay, laid_out (f_attr f) 0 lay /\ total_slots lay = net_bars br) /\
    if br then bus_range f = (h_sec x, h_sub x) /\
      (fix go (l : list hw) (l' : list net) : Prop := match l, l' with [], [] => True | y :: l, z :: l' => numbered (h_sec x) y z /\ go l l' | _, _ => False end) l l'
    else l = [] /\ l' = []
  end.
(** The functions, with the number of their BARs *)
Fixpoint net_fns (z : net) : list (fnc * Z) := match z with Net f br l => (f, net_bars br) :: flat_map net_fns l end.
(** The TLP as it arrives: a configuration request is of type 0 then. *)
Definition arrived (t t' : tlp) : Prop :=
  t' = t /\ (forall ty, fmt_type t = Ok ty -> ~ In ty [CFG_READ_1; CFG_WRITE_1]) \/
  t' = set_type_ 4 t /\ (fmt_type t = Ok CFG_READ_1 /\ fmt_type t' = Ok CFG_READ_0 \/ fmt_type t = Ok CFG_WRITE_1 /\ fmt_type t' = Ok CFG_WRITE_0).

(** ** Before *)
(** What the probe has found (C22): sizes and the kinds in the low bits *)
Fixpoint seen (l : list entry) (bs : list (Z * Z)) : Prop :=
  match l, bs with
  | [], [] => True
  | None :: l, (raw, size) :: bs => raw = 0 /\ size = 0 /\ seen l bs
  | Some (k, n, _) :: l, (raw, size) :: bs =>
    size = 2 ^ n /\ 0 <= raw /\ raw mod (if is_io k then 4 else 16) = type_bits k /\
    if is_wide k then match bs with _ :: bs => seen l bs | [] => False end else seen l bs
  | _, _ => False
  end.
(** The functions [z] behind the tree [y] that enumeration starts from *)
Fixpoint shown (y : hw) (z : net) : Prop :=
  match y, z with
  | Hw x l, Net f br l' =>
    br = is_bridge x /\ device (f_id f) = h_d x /\ func (f_id f) = h_f x /\
    (exists lay, laid_out (f_attr f) 0 lay /\ total_slots lay = net_bars br /\ seen lay (h_bars x)) /\
    SpecAssign.size_ok 11 (snd (h_rom x)) /\ 0 <= fst (h_rom x) /\ (br = true -> whole f) /\
    (fix go (l : list hw) (l' : list net) : Prop := match l, l' with [], [] => True | y :: l, z :: l' => shown y z /\ go l l' | _, _ => False end) l l'
  end.
(** The host bridge: no BARs, and all buses behind it *)
Definition host_like (f : fnc) : Prop :=
  f_id f = mkId 0 0 0 /\ laid_out (f_attr f) 0 [None; None] /\ bus_range f = (0, 255).
(** The host bridge [z] with the functions behind it, which are [h] for enumeration; enumeration ends with [h'] and the buses [b], and the assignment
    from [l] on with [n] and [l']. *)
Definition brought_up (m : Z) (h : hw) (z : net) (l : lims) (h' : hw) (b : pbus) (n : list adev) (l' : lims) : Prop :=
  good_system m h /\ scan_root m h = Ok (h', b) /\ assign_bus b l = Ok (n, l') /\ (forall k, 0 < lim k l /\ lim k l' < top k) /\
  exists f zs, z = Net f true zs /\ host_like f /\ Forall2 shown (hw_below h) zs.
Definition below (z : net) : list (fnc * Z) := match z with Net _ _ l => flat_map net_fns l end.
