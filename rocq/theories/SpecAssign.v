(** Specification of the assignment of addresses. *)
From Verif Require Import Base ModelUtils ModelAttrs ModelConfig ModelEnum ModelAssign.

(** ** The BARs of a function *)
(** Bits 0 to 3 of a BAR: I/O space, type (bit 2: 64 bits wide) and prefetchable *)
Definition bar_kind (raw : Z) : kind :=
  if Z.odd raw then Io else if Z.odd (raw / 4) && Z.odd (raw / 8) then Pref else Mem.
Definition wide (raw : Z) : bool := negb (Z.odd raw) && Z.odd (raw / 4).
(** The implemented BARs: register, kind and size.  A wide one uses two registers. *)
Fixpoint wanted (reg : Z) (bars : list (Z * Z)) : list (Z * kind * Z) :=
  match bars with
  | [] => []
  | (raw, size) :: r =>
    if size =? 0 then wanted (reg + 4) r
    else (reg, bar_kind raw, size) :: (if wide raw then match r with [] => [] | _ :: r => wanted (reg + 8) r end else wanted (reg + 4) r)
  end.
Definition wanted_rom (reg : Z) (rom : Z * Z) : list (Z * kind * Z) := if snd rom =? 0 then [] else [(reg, Mem, snd rom)].
(** Six BARs in a header of type 0, two in one of type 1 *)
Definition requests (p : pfn) : list (Z * kind * Z) :=
  if p_type p =? 0 then wanted 0x10 (firstn 6 (p_bars p)) ++ wanted_rom 0x30 (p_rom p)
  else if p_type p =? 1 then wanted 0x10 (firstn 2 (p_bars p)) ++ wanted_rom 0x38 (p_rom p)
  else [].
(** Sizes are powers of two, no less than the part of the register that holds no address *)
Definition size_ok (low size : Z) : Prop := size = 0 \/ exists n, low <= n /\ size = 2 ^ n.
Fixpoint bars_ok (bars : list (Z * Z)) : Prop :=
  match bars with
  | [] => True
  | (raw, size) :: r =>
    0 <= raw /\ size_ok (if Z.odd raw then 2 else 4) size /\
    if (size =? 0) || negb (wide raw) then bars_ok r else match r with [] => False | _ :: r => bars_ok r end
  end.
Definition fn_ok (p : pfn) : Prop :=
  (p_type p = 0 -> bars_ok (firstn 6 (p_bars p)) /\ size_ok 11 (snd (p_rom p)) /\ 0 <= fst (p_rom p)) /\
  (p_type p = 1 -> bars_ok (firstn 2 (p_bars p)) /\ size_ok 11 (snd (p_rom p)) /\ 0 <= fst (p_rom p)).
Fixpoint tree_ok (b : pbus) : Prop :=
  match b with
  | PBus _ _ _ ds => (fix go ds := match ds with [] => True | (p, o) :: r => fn_ok p /\ match o with Some c => tree_ok c | None => True end /\ go r end) ds
  end.

(** ** The result *)
(** The functions are those of the tree, every implemented BAR got an address. *)
Fixpoint served (b : pbus) (t : list adev) : Prop :=
  match b with
  | PBus _ _ _ ds =>
    (fix go ds t :=
       match ds, t with
       | [], [] => True
       | (p, o) :: ds, ADev q own sub :: t =>
         p = q /\ map (fun a => (a_reg a, a_kind a, a_size a)) own = requests p /\
         match o, sub with Some c, Some (_, kids) => served c kids | None, None => True | _, _ => False end /\ go ds t
       | _, _ => False
       end) ds t
  end.
(** All allocations of a bus and the buses below, and all bridges with those below them *)
Fixpoint allocs (d : adev) : list alloc :=
  match d with ADev _ own sub => own ++ match sub with Some (_, kids) => flat_map allocs kids | None => [] end end.
Fixpoint bridges_of (d : adev) : list (bregs * list alloc) :=
  match d with
  | ADev _ _ (Some (r, kids)) => (r, flat_map allocs kids) :: flat_map bridges_of kids
  | ADev _ _ None => []
  end.

Definition aligned (a : alloc) : Prop := (a_size a | a_addr a).
Definition disjoint (a b : alloc) : Prop := a_kind a = a_kind b -> a_addr a + a_size a <= a_addr b \/ a_addr b + a_size b <= a_addr a.
(** The function at hand answers to the addresses that agree with its register in the bits above the size. *)
Definition register (a : alloc) : Z := match a_dws a with [d] => d | [d; u] => d + u * 2 ^ 32 | _ => -1 end.
Definition answers (a : alloc) (x : Z) : Prop := x / a_size a = register a / a_size a.

(** The windows in the registers of a bridge (PCI-to-PCI bridge specification, 3.2.5.6 to 3.2.5.11) *)
Definition window (k : kind) (r : bregs) : Z * Z :=
  match k with
  | Io => (fst (r_io_upper r) * 2 ^ 16 + fst (r_io r) / 16 * 2 ^ 12, snd (r_io_upper r) * 2 ^ 16 + snd (r_io r) / 16 * 2 ^ 12 + 0xfff)
  | Mem => (fst (r_mem r) / 16 * 2 ^ 20, snd (r_mem r) / 16 * 2 ^ 20 + 0xfffff)
  | Pref => (r_pref_base_upper r * 2 ^ 32 + fst (r_pref r) / 16 * 2 ^ 20, r_pref_limit_upper r * 2 ^ 32 + snd (r_pref r) / 16 * 2 ^ 20 + 0xfffff)
  end.
Definition passes (k : kind) (r : bregs) (x : Z) : Prop := fst (window k r) <= x <= snd (window k r).
Definition contains (r : bregs) (a : alloc) : Prop := fst (window (a_kind a) r) <= a_addr a /\ a_addr a + a_size a - 1 <= snd (window (a_kind a) r).
(** Some address of the BAR is in the window. *)
Definition meets (r : bregs) (a : alloc) : Prop := exists x, a_addr a <= x < a_addr a + a_size a /\ passes (a_kind a) r x.

(** Space for a tree: twice the size of each BAR and a granule for each bridge *)
Definition granule (k : kind) : Z := match k with Io => 0x1000 | _ => 0x100000 end.
Definition kind_eqb (a b : kind) : bool := match a, b with Io, Io | Mem, Mem | Pref, Pref => true | _, _ => false end.
Definition need_fn (k : kind) (p : pfn) : Z := fold_right (fun '(_, k', s) n => (if kind_eqb k k' then 2 * s else 0) + n) 0 (requests p).
Fixpoint need (k : kind) (b : pbus) : Z :=
  match b with
  | PBus _ _ _ ds =>
    (fix go ds := match ds with [] => 0 | (p, o) :: r => need_fn k p + match o with Some c => need k c + granule k | None => 0 end + go r end) ds
  end.
Definition top (k : kind) : Z := match k with Pref => 2 ^ 64 | _ => 2 ^ 32 end.

(** The usual topology: bridges share their bus only with other bridges, and have no BARs themselves. *)
Fixpoint tidy (b : pbus) : Prop :=
  match b with
  | PBus _ _ _ ds =>
    ((exists p c, In (p, Some c) ds) -> forall p o, In (p, o) ds -> requests p = []) /\
    (fix go ds := match ds with [] => True | (_, o) :: r => match o with Some c => tidy c | None => True end /\ go r end) ds
  end.

(** ** The bridge at the other end *)
(** Its windows (core/bridge.py:52-68, as in ModelConfig.v and ModelRoute.v) *)
Definition base_attr (k : kind) : attr := match k with Io => fn_io_base | Mem => fn_mem_base | Pref => fn_prefetchable_mem_base end.
Definition limit_attr (k : kind) : attr := match k with Io => fn_io_limit | Mem => fn_mem_limit | Pref => fn_prefetchable_mem_limit end.
Definition windows (f : fnc) (k : kind) : Z * Z := (f_attr f (base_attr k), f_attr f (limit_attr k)).
(** In whole granules, as from the start and after every write *)
Definition whole (f : fnc) : Prop := forall k, exists x y, 0 <= x < top k / granule k /\ 0 <= y < top k / granule k /\
  windows f k = (x * granule k, y * granule k + granule k - 1).
(** The writes of [setup_bridge]: two bytes to register 7 and dwords (of two halfwords) to the others *)
Definition joined (n : Z) (v : Z * Z) : Z := fst v + snd v * 2 ^ n.
Definition program (r : bregs) (f : fnc) : fnc :=
  br_write 11 (r_pref_limit_upper r) 15 (br_write 10 (r_pref_base_upper r) 15 (br_write 9 (joined 16 (r_pref r)) 15
    (br_write 8 (joined 16 (r_mem r)) 15 (br_write 12 (joined 16 (r_io_upper r)) 15 (br_write 7 (joined 8 (r_io r)) 3 f))))).
