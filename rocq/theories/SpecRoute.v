(** Routing (PCIe 2.2.4, 2.2.8, 6.2; PCI-to-PCI bridge 3.2.5). *)
From Verif Require Import Base ModelUtils ModelTlp ModelAttrs ModelCapList ModelConfig SpecRegs SpecBar.

(** How requests and completions are routed.  ([TNone]: messages and the types that the package does not route.) *)
Inductive route := TLocal (dst : pcie_id)    (** a type 0 configuration request: to the device on this link *)
                 | TBus (dst : pcie_id)      (** by ID, to the bus *)
                 | TBack (dst : pcie_id)     (** by ID, a completion to its requester *)
                 | TAddr (io : bool) (a : Z)
                 | TNone.
Definition route_of (ty : tlp_type) (t : tlp) : route :=
  match ty with
  | CFG_READ_0 | CFG_WRITE_0 => TLocal (completer_id t)
  | CFG_READ_1 | CFG_WRITE_1 => TBus (completer_id t)
  | CPL | CPL_DATA | CPL_LOCKED | CPL_LOCKED_DATA => TBack (requester_id t)
  | IO_READ | IO_WRITE => TAddr true (address t)
  | MEM_READ | MEM_READ_64 | MEM_WRITE | MEM_WRITE_64 => TAddr false (address t)
  | _ => TNone
  end.
Definition non_posted (ty : tlp_type) : bool :=
  match ty with
  | CFG_READ_0 | CFG_WRITE_0 | CFG_READ_1 | CFG_WRITE_1 | IO_READ | IO_WRITE | MEM_READ | MEM_READ_64 => true
  | _ => false
  end.

(** The windows and bus numbers of a bridge. *)
Definition bus_range (f : fnc) : Z * Z := (f_attr f fn_sec_bus_num, f_attr f fn_sub_bus_num).
Definition io_window (f : fnc) : Z * Z := (f_attr f fn_io_base, f_attr f fn_io_limit).
Definition mem_window (f : fnc) : Z * Z := (f_attr f fn_mem_base, f_attr f fn_mem_limit).
Definition pf_window (f : fnc) : Z * Z := (f_attr f fn_prefetchable_mem_base, f_attr f fn_prefetchable_mem_limit).
(** Those that its registers hold. *)
Definition reg_of (f : fnc) (r : Z) : Z := match br_read f r with Ok (Some v) => v | _ => 0 end.
Definition reg_bus_range (f : fnc) : Z * Z := (slice (reg_of f 6) 8 8, slice (reg_of f 6) 16 8).
Definition reg_io_window (f : fnc) : Z * Z :=
  (slice (reg_of f 7) 4 4 * 2 ^ 12 + slice (reg_of f 12) 0 16 * 2 ^ 16,
   slice (reg_of f 7) 12 4 * 2 ^ 12 + 0xfff + slice (reg_of f 12) 16 16 * 2 ^ 16).
Definition reg_mem_window (f : fnc) : Z * Z :=
  (slice (reg_of f 8) 4 12 * 2 ^ 20, slice (reg_of f 8) 20 12 * 2 ^ 20 + 0xfffff).
Definition reg_pf_window (f : fnc) : Z * Z :=
  (slice (reg_of f 9) 4 12 * 2 ^ 20 + reg_of f 10 * 2 ^ 32,
   slice (reg_of f 9) 20 12 * 2 ^ 20 + 0xfffff + reg_of f 11 * 2 ^ 32).
Definition inw (a : Z) (w : Z * Z) : bool := (fst w <=? a) && (a <=? snd w).
(** Behind the bridge.  The ID 0:0.0 is that of the root complex, which is never behind a bridge. *)
Definition bus_behind (f : fnc) (i : pcie_id) : bool := inw (bus i) (bus_range f) && negb (id_eqb i (mkId 0 0 0)).
Definition behind (f : fnc) (r : route) : bool :=
  match r with
  | TLocal _ | TNone => false
  | TBus i | TBack i => bus_behind f i
  | TAddr true a => inw a (io_window f)
  | TAddr false a => inw a (mem_window f) || inw a (pf_window f)
  end.
(** The function itself, whose BARs are [l]. *)
Definition hits (a : Z) (io : bool) (w : Z * bkind * Z * Z) : bool :=
  let '(_, k, n, base) := w in Bool.eqb (is_io k) io && (base <=? a) && (a <? base + 2 ^ n).
Definition own (f : fnc) (l : list entry) (r : route) : bool :=
  match r with
  | TLocal i => (device (f_id f) =? device i) && (func (f_id f) =? func i)
  | TBack i => id_eqb (f_id f) i
  | TAddr io a => existsb (hits a io) (windows 0 l)
  | TBus _ | TNone => false
  end.
(** What a bridge with BARs [l] sends to its secondary bus for [t]. *)
Definition as_seen (f : fnc) (ty : tlp_type) (t : tlp) : tlp :=
  if bus (completer_id t) =? fst (bus_range f) then
    match ty with
    | CFG_READ_1 => set_type_ 4 t
    | CFG_WRITE_1 => set_type_ 4 t
    | _ => t
    end
  else t.
(** The completion with status UR (PCIe 2.3.2). *)
Definition is_ur (c t : tlp) (cid : pcie_id) : Prop :=
  fmt_type c = Ok CPL /\ status c = UR /\ requester_id c = requester_id t /\ tag c = tag t /\ completer_id c = cid /\
  tc c = tc t /\ ModelTlp.attr c = ModelTlp.attr t /\ data c = [] /\ tlen c = 0 /\ ep c = false.
(** The BARs of a function with [n] BARs are [l], with windows that [match_bar] decodes correctly for the address (see C21). *)
Definition bars (f : fnc) (n : Z) (l : list entry) (r : route) : Prop :=
  laid_out (f_attr f) 0 l /\ total_slots l = n /\
  match r with TAddr io a => 0 <= a /\ Forall small (windows 0 l) /\ Forall (reaches a io) (windows 0 l) | _ => True end.
(** What the registers of a bridge can hold. *)
Definition programmed (f : fnc) : Prop :=
  let s := f_attr f in
  0 <= s fn_sec_bus_num < 2 ^ 8 /\ 0 <= s fn_sub_bus_num < 2 ^ 8 /\
  (0 <= s fn_io_base < 2 ^ 32 /\ s fn_io_base mod 2 ^ 12 = 0) /\ (0 <= s fn_io_limit < 2 ^ 32 /\ s fn_io_limit mod 2 ^ 12 = 0xfff) /\
  (0 <= s fn_mem_base < 2 ^ 32 /\ s fn_mem_base mod 2 ^ 20 = 0) /\ (0 <= s fn_mem_limit < 2 ^ 32 /\ s fn_mem_limit mod 2 ^ 20 = 0xfffff) /\
  (0 <= s fn_prefetchable_mem_base < 2 ^ 64 /\ s fn_prefetchable_mem_base mod 2 ^ 20 = 0) /\
  (0 <= s fn_prefetchable_mem_limit < 2 ^ 64 /\ s fn_prefetchable_mem_limit mod 2 ^ 20 = 0xfffff).

(** Status bits: [f'] is [f] with the bits of [l] set whose condition holds. *)
Definition raised (l : list (attr * bool)) (a : attr) : bool := existsb (fun p => snd p && Pos.eqb a (fst p)) l.
Definition reports (f f' : fnc) (l : list (attr * bool)) : Prop :=
  f_id f' = f_id f /\ f_heap f' = f_heap f /\ f_caps f' = f_caps f /\ f_ecaps f' = f_ecaps f /\
  forall a, f_attr f' a = if raised l a then 1 else f_attr f a.
(** Poisoned, with the enable bit [e]: reported in [a]. *)
Definition par (e a : attr) (t : tlp) (f : fnc) : attr * bool := (a, zbool (f_attr f e) && ep t).
(** Configuration requests; completions. *)
Definition local_cfg (r : route) : bool := match r with TLocal _ | TBus _ => true | _ => false end.
Definition is_back (r : route) : bool := match r with TBack _ => true | _ => false end.

(** ** Numbers *)
(** The least number from [lo] on that is not in [l]. *)
Definition least_free (lo : Z) (l : list Z) (n : Z) : Prop := lo <= n /\ ~ In n l /\ forall m, lo <= m < n -> In m l.
