(** core/pci.py:145-230, 623-676, 716-757: enumeration as the host does it, by configuration accesses.  Reads and writes of the function with a given number are given by [cr] and [cw] over the
    state of the rest of the system, as in ModelPci.v.  Log messages are left out, and what the host remembers but does not use while it enumerates (vendor, class, subsystem, interrupt state). *)
From Verif Require Import Base ModelUtils ModelChan ModelTags ModelPci ModelPciCaps ModelDriver ModelEnum.
From Verif Require ModelMsi.

(** core/pci.py:297-352: a [PciDevice] after [setup].  [d_regs]: [pcie_capabilities_reg] and [pcie_devcap_reg]. *)
Record pdev := mkPd { d_id : pcie_id; d_type : Z; d_multi : bool; d_probed : probed; d_found : found; d_regs : Z * Z }.
(** core/pci.py:323-331: [None] at first *)
Definition probed0 : probed := mkProbed (fun _ => None) (fun _ => None) 0 0.
(** core/pci.py:395-396, 673: [pcie_type], [pcie_mpss] *)
Definition d_ptype (q : pdev) : Z := Z.land (Z.shiftr (fst (d_regs q)) 4) 0xf.
Definition d_mpss (q : pdev) : Z := Z.land (snd (d_regs q)) 0x7.
(** The device as ModelEnum.v has it; attributes of BARs that are [None] there count as 0. *)
Definition or0 (o : option Z) : Z := match o with Some v => v | None => 0 end.
Definition bars_of (n : Z) (p : probed) : list (Z * Z) := map (fun i => (or0 (p_raw p i), or0 (p_size p i))) (zrange n).
Definition strip (q : pdev) : pfn :=
  mkPf (d_id q) (d_type q) (d_multi q) (if is_pcie (d_found q) then Some (d_ptype q, d_mpss q) else None)
    (bars_of (if d_type q =? 0 then 6 else if d_type q =? 1 then 2 else 0) (d_probed q)) (p_rom_raw (d_probed q), p_rom_size (d_probed q)).

Section Enum.
Context {T : Type} (cr : pcie_id -> Z -> Z -> T -> res (T * list Z)) (cw : pcie_id -> Z -> list Z -> T -> res T) (fuel : nat) (m : Z).
(** core/pci.py:721-757; [br]: the bridge of the bus, [None]: the host bridge, whose [max_payload_size] is [m] *)
Definition cfg_mps (br : option pdev) (q : pdev) (s : T) : res T :=
  let get q := read_mps (cr (d_id q)) (d_found q) in
  let set q := write_mps (cr (d_id q)) (cw (d_id q)) (d_found q) (d_mpss q) in
  if negb (is_pcie (d_found q)) then Ok s
  else if d_ptype q =? 9 then set q (d_mpss q) s
  else if d_ptype q =? 4 then match br with None => set q m s | Some _ => Err AttributeError end
  else
    match br with
    | None => Ok s
    | Some b =>
      if negb (is_pcie (d_found b)) then Ok s
      else
        '(s, mps) <- get q s ;;
        '(s, parent) <- get b s ;;
        if mps =? parent then Ok s
        else
          '(s, parent) <- (if (d_mpss q <? parent) && (d_ptype b =? 4) then s <- set b (Z.min (d_mpss q) (d_mpss b)) s ;; get b s else Ok (s, parent)) ;;
          set q (Z.min parent (d_mpss q)) s
    end.
(** core/pci.py:623-649 *)
Definition cfg_bars (dev : pcie_id) (ty : Z) (s : T) : res (T * probed) :=
  if ty =? 0 then
    '(s, _) <- cfg_read_dword (cr dev) 0x2c s ;;
    read_bars (cr dev) (cw dev) 6 0x30 probed0 s
  else if ty =? 1 then read_bars (cr dev) (cw dev) 2 0x38 probed0 s
  else Ok (s, probed0).
(** core/pci.py:670-673; 0 at first (core/pci.py:345-347) *)
Definition cfg_exp (dev : pcie_id) (p : found) (s : T) : res (T * (Z * Z)) :=
  if is_pcie p then
    '(s, reg) <- cap_read_word (cr dev) p EXP 2 s ;;
    '(s, devcap) <- cap_read_dword (cr dev) p EXP 4 s ;;
    Ok (s, (reg, devcap))
  else Ok (s, (0, 0)).
(** core/pci.py:406-410, 811-819: [None] counts as 0 *)
Definition cap_at (p : found) (id : Z) : Z := or0 (get_capability_offset (CapId id) p).
(** core/pci.py:623-676, 716-719 *)
Definition cfg_setup (br : option pdev) (dev : pcie_id) (s : T) : res (T * pdev) :=
  '(s, val) <- cfg_read_byte (cr dev) 0x00e s ;;
  let ty := Z.land val 0x7f in
  '(s, _) <- cfg_read_dword (cr dev) 0x008 s ;;
  '(s, pr) <- cfg_bars dev ty s ;;
  '(s, p) <- walk_capabilities (cr dev) fuel s ;;
  '(s, regs) <- cfg_exp dev p s ;;
  let q := mkPd dev ty (zbool (Z.land val 0x80)) pr p regs in
  s <- cfg_mps br q s ;;
  s <- configure_extended_tags (cr dev) (cw dev) p (snd regs) s ;;
  s <- configure_serr (cr dev) (cw dev) ty s ;;
  '(_, s) <- ModelMsi.init_capabilities (cr dev) (cw dev) (cap_at p) ModelMsi.irq0 s ;;
  Ok (s, q).

(** core/pci.py:171-190 *)
Fixpoint cfg_functions (br : option pdev) (n d : Z) (fs : list Z) (s : T) : res (T * list pdev) :=
  match fs with
  | [] => Ok (s, [])
  | f :: fs =>
    dev <- pcie_id_new n d f ;;
    '(s, val) <- cfg_read_dword (cr dev) 0 s ;;
    if val =? 0xffffffff then cfg_functions br n d fs s
    else
      '(s, q) <- cfg_setup br dev s ;;
      if d_multi q then '(s, qs) <- cfg_functions br n d fs s ;; Ok (s, q :: qs) else Ok (s, [q])
  end.
(** core/pci.py:149-193.  [wait_crs] (core/pci.py:124-143) only waits: a function that answers with CRS once is given up, as if it went on to do so. *)
Fixpoint cfg_devices (br : option pdev) (n : Z) (ds : list Z) (s : T) : res (T * list pdev) :=
  match ds with
  | [] => Ok (s, [])
  | d :: ds =>
    if (n =? 0) && (d =? 0) then cfg_devices br n ds s
    else
      dev <- pcie_id_new n d 0 ;;
      '(s, val) <- cfg_read_dword (cr dev) 0 s ;;
      if no_device val then cfg_devices br n ds s
      else
        '(s, qs) <- cfg_functions br n d (zrange 8) s ;;
        if only_one_child (option_map strip br) then Ok (s, qs)
        else '(s, rs) <- cfg_devices br n ds s ;; Ok (s, qs ++ rs)
  end.
(** core/pci.py:195-202 with 204-230 and 74-102; [scan] is [child.scan].  [last_bus_num] is 255 until the child is scanned. *)
Fixpoint cfg_bridges (scan : pdev -> Z -> T -> res (T * list (pfn * option pbus) * Z)) (n : Z) (qs : list pdev) (last : Z) (s : T) :
  res (T * list (pfn * option pbus) * Z) :=
  match qs with
  | [] => Ok (s, [], last)
  | q :: qs =>
    if p_is_bridge (strip q) then
      s <- enable_crs (cr (d_id q)) (cw (d_id q)) (d_found q) s ;;
      let next := last + 1 in
      '(s, buses) <- cfg_read_dword (cr (d_id q)) 0x018 s ;;
      let buses := Z.lor (Z.lor (Z.lor (Z.land buses 0xff000000) (Z.shiftl n 0)) (Z.shiftl next 8)) (Z.shiftl 255 16) in
      s <- cfg_write_dword (cw (d_id q)) 0x018 buses s ;;
      '(s, ds, last) <- scan q next s ;;
      let buses := Z.lor (Z.lor (Z.lor (Z.land buses 0xff000000) (Z.shiftl n 0)) (Z.shiftl next 8)) (Z.shiftl last 16) in
      s <- cfg_write_dword (cw (d_id q)) 0x018 buses s ;;
      '(s, r, last') <- cfg_bridges scan n qs last s ;;
      Ok (s, (strip q, Some (PBus next n last ds)) :: r, last')
    else '(s, r, last) <- cfg_bridges scan n qs last s ;; Ok (s, (strip q, None) :: r, last)
  end.
(** core/pci.py:145-202 *)
Fixpoint cfg_scan (depth : nat) (br : option pdev) (n : Z) (s : T) : res (T * list (pfn * option pbus) * Z) :=
  match depth with
  | O => Err OutOfFuel
  | S depth =>
    '(s, qs) <- cfg_devices br n (zrange 32) s ;;
    cfg_bridges (fun q => cfg_scan depth (Some q)) n qs n s
  end.
(** core/pci.py:63-65; as for [scan_root] the depth is at most 257 *)
Definition cfg_scan_root (s : T) : res (T * pbus) := '(s, ds, last) <- cfg_scan 257 None 0 s ;; Ok (s, PBus 0 0 last ds).
End Enum.
