(** What enumeration is to achieve, said of the tree of functions alone. *)
From Verif Require Import Base ModelUtils ModelChan ModelEnum.
Require Import Sorting.Sorted.

(** All nodes of a tree *)
Fixpoint hw_all (P : hw -> Prop) (y : hw) : Prop :=
  match y with
  | Hw x l => P (Hw x l) /\ (fix go (l : list hw) : Prop := match l with [] => True | z :: r => hw_all P z /\ go r end) l
  end.

(** ** Topologies *)
Definition key (y : hw) : Z := 8 * h_d (hw_fn y) + h_f (hw_fn y).
Definition good_fn (x : hfn) : Prop :=
  0 <= h_d x < 32 /\ 0 <= h_f x < 8 /\ ~ In (h_id x) [0; 0xffffffff; 0xffff0000; 0x0000ffff; 0xffff0001] /\
  (h_type x = 0 \/ h_type x = 1) /\ h_sub x = 0 /\ 0 <= h_mps x <= 5 /\
  match h_exp x with Some (_, mpss) => 0 <= mpss <= 5 | None => True end.
Definition port_type (x : hfn) (t : Z) : Prop := exists s, h_exp x = Some (t, s).
(** The functions on one bus, below bridge [x], listed by number: a device has a function 0, and says so if it has others; below a
    downstream port there is one device. *)
Definition good_bus (x : hfn) (l : list hw) : Prop :=
  StronglySorted (fun a b => key a < key b) l /\
  Forall (fun z => good_fn (hw_fn z)) l /\
  (forall z, In z l -> exists z0, In z0 l /\ h_d (hw_fn z0) = h_d (hw_fn z) /\ h_f (hw_fn z0) = 0) /\
  (forall z z', In z l -> In z' l -> h_d (hw_fn z) = h_d (hw_fn z') -> h_f (hw_fn z) <> h_f (hw_fn z') -> h_multi (hw_fn z) = true) /\
  (port_type x 4 \/ port_type x 6 \/ port_type x 8 -> forall z z', In z l -> In z' l -> h_d (hw_fn z) = h_d (hw_fn z')).
Definition good_node (y : hw) : Prop := (h_type (hw_fn y) = 0 -> hw_below y = []) /\ good_bus (hw_fn y) (hw_below y).
(** Root ports are on the root bus and nowhere else; [m]: the payload size that the host asks root ports to use. *)
Definition good_system (m : Z) (h : hw) : Prop :=
  h_type (hw_fn h) = 1 /\ h_exp (hw_fn h) = None /\ 0 <= h_mps (hw_fn h) <= 5 /\ h_sec (hw_fn h) = 0 /\ h_sub (hw_fn h) = 255 /\ 0 <= m <= 5 /\
  hw_all good_node h /\
  Forall (fun z => 1 <= h_d (hw_fn z) /\
                   (forall s, h_exp (hw_fn z) = Some (4, s) -> m <= s) /\
                   hw_all (fun y => Forall (fun z => ~ port_type (hw_fn z) 4) (hw_below y)) z) (hw_below h).
(** Number of bridges in a tree, its root included *)
Fixpoint bridges (y : hw) : Z :=
  match y with Hw x l => (if is_bridge x then 1 else 0) + (fix go (l : list hw) : Z := match l with [] => 0 | z :: r => bridges z + go r end) l end.

(** ** Outcome *)
(** Nothing but bus numbers and payload sizes is changed. *)
Fixpoint forget (y : hw) : hw := match y with Hw x l => Hw (put_mps 0 (put_buses 0 0 0 x)) (map forget l) end.
(** The bus numbers in the bridges of a tree *)
Fixpoint buses (y : hw) : list Z :=
  match y with Hw x l => (if is_bridge x then [h_sec x] else []) ++ flat_map buses l end.
Definition interval (a b : Z) : list Z := map (fun k => a + k) (zrange (b - a + 1)).
(** The functions in a tree with the numbers they have on the bus that is [n] for the uppermost *)
Fixpoint functions (n : Z) (y : hw) : list (Z * hfn) := match y with Hw x l => (n, x) :: flat_map (functions (h_sec x)) l end.
Definition below_functions (y : hw) : list (Z * hfn) := flat_map (functions (h_sec (hw_fn y))) (hw_below y).
(** Bus, device and function number *)
Definition number (e : Z * hfn) : pcie_id := mkId (fst e) (h_d (snd e)) (h_f (snd e)).
(** What the host is to know of the functions on bus [n] *)
Fixpoint view (n : Z) (y : hw) : pfn * option pbus :=
  match y with
  | Hw x l => (mkPf (mkId n (h_d x) (h_f x)) (h_type x) (h_multi x) (h_exp x) (h_bars x) (h_rom x),
               if is_bridge x then Some (PBus (h_sec x) (h_pri x) (h_sub x) (map (view (h_sec x)) l)) else None)
  end.
(** The functions the host has found, with their numbers *)
Fixpoint bus_fns (b : pbus) : list pfn :=
  match b with
  | PBus _ _ _ ds => flat_map (fun d => match d with (p, o) => p :: match o with Some c => bus_fns c | None => [] end end) ds
  end.
(** Bridges on one bus, in order: ranges do not meet; the primary bus is the one they are on. *)
Definition ordered (n : Z) (l : list hw) : Prop :=
  ForallOrdPairs (fun a b => is_bridge (hw_fn a) = true -> is_bridge (hw_fn b) = true -> h_sub (hw_fn a) < h_sec (hw_fn b)) l /\
  Forall (fun z => is_bridge (hw_fn z) = true -> h_pri (hw_fn z) = n /\ n < h_sec (hw_fn z) <= h_sub (hw_fn z)) l.

(** ** Payload sizes *)
Definition all_fns (P : hfn -> Prop) (y : hw) : Prop := hw_all (fun y => P (hw_fn y)) y.
(** PCIe functions of a hierarchy: none is a root complex integrated endpoint *)
Definition in_hierarchy (x : hfn) : Prop := exists t s, h_exp x = Some (t, s) /\ t <> 9.
(** [x] can handle packets of size [v]. *)
Definition supports (v : Z) (x : hfn) : Prop := exists t s, h_exp x = Some (t, s) /\ v <= s.
(** No function uses more than every one supports. *)
Definition consistent (y : hw) : Prop := all_fns (fun x => all_fns (supports (h_mps x)) y) y.
(** What the first function below a root port can handle of the size [m] *)
Definition first_size (m : Z) (y : hw) : Z :=
  match hw_below y with [] => m | z :: _ => match h_exp (hw_fn z) with Some (_, s) => Z.min m s | None => m end end.
(** No function uses more than it supports itself. *)
Definition own (x : hfn) : Prop := match h_exp x with Some (_, s) => h_mps x <= s | None => True end.
(** Payload sizes as they are after reset *)
Definition reset (h : hw) : Prop := Forall (all_fns (fun x => h_mps x = 0)) (hw_below h).
