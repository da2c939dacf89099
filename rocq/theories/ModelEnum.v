(** core/pci.py: enumeration of a tree of bridges and endpoints, and the assignment of addresses.

    The devices: a tree of functions with what enumeration sees of their registers.  A configuration access goes down the tree by the bus
    numbers in the bridges. *)
From Verif Require Import Base ModelUtils ModelChan.

(** ** The devices *)
Record hfn := mkHf {
  h_d : Z; h_f : Z;                (* device and function number *)
  h_id : Z;                        (* register 0 *)
  h_type : Z; h_multi : bool;      (* header type *)
  h_exp : option (Z * Z);          (* PCIe capability: device/port type, Max_Payload_Size Supported *)
  h_mps : Z;                       (* Max_Payload_Size *)
  h_pri : Z; h_sec : Z; h_sub : Z; (* register 6 of a bridge *)
  h_bars : list (Z * Z);           (* what [read_bars] finds: bar_raw (its low bits) and bar_size *)
  h_rom : Z * Z }.                 (* expansion_rom_raw and expansion_rom_size *)
(** A function and, if it is a bridge, the functions on its secondary bus. *)
Inductive hw := Hw (x : hfn) (l : list hw).
Definition hw_fn (y : hw) : hfn := match y with Hw x _ => x end.
Definition hw_below (y : hw) : list hw := match y with Hw _ l => l end.
Definition set_fn (g : hfn -> hfn) (y : hw) : hw := match y with Hw x l => Hw (g x) l end.
Definition put_mps (v : Z) (x : hfn) : hfn := mkHf (h_d x) (h_f x) (h_id x) (h_type x) (h_multi x) (h_exp x) v (h_pri x) (h_sec x) (h_sub x) (h_bars x) (h_rom x).
Definition put_buses (p c s : Z) (x : hfn) : hfn := mkHf (h_d x) (h_f x) (h_id x) (h_type x) (h_multi x) (h_exp x) (h_mps x) p c s (h_bars x) (h_rom x).
(** core/pci.py:389-390, of the function itself *)
Definition is_bridge (x : hfn) : bool := (h_type x =? 1) || (h_type x =? 2).
(** core/function.py:397-403: configuration requests of type 0 *)
Definition is_at (d f : Z) (y : hw) : bool := (h_d (hw_fn y) =? d) && (h_f (hw_fn y) =? f).
(** core/bridge.py:283-285: configuration requests of type 1 (the bus is not 0 here) *)
Definition claims_bus (b : Z) (y : hw) : bool := is_bridge (hw_fn y) && (h_sec (hw_fn y) <=? b) && (b <=? h_sub (hw_fn y)).
(** The function that gets a configuration request forwarded by bridge [y] (core/bridge.py:323-352, core/switch.py:166-191 and
    core/device.py:117-132; ModelRoute.v has the routing itself): of type 0 on its secondary bus, of type 1 beyond. *)
Fixpoint hw_get (b d f : Z) (y : hw) : option hfn :=
  match y with
  | Hw x l =>
    (fix go (l : list hw) : option hfn :=
       match l with
       | [] => None
       | z :: r =>
         if b =? h_sec x then if is_at d f z then Some (hw_fn z) else go r
         else if claims_bus b z then hw_get b d f z else go r
       end) l
  end.
(** ... and the change [g] of its registers *)
Fixpoint hw_map (g : hfn -> hfn) (b d f : Z) (y : hw) : hw :=
  match y with
  | Hw x l =>
    Hw x ((fix go (l : list hw) : list hw :=
       match l with
       | [] => []
       | z :: r =>
         if b =? h_sec x then if is_at d f z then set_fn g z :: r else z :: go r
         else if claims_bus b z then hw_map g b d f z :: r else z :: go r
       end) l)
  end.
(** Register 0 as [config_read_dword] returns it; nobody there: all ones *)
Definition read_id (h : hw) (b d f : Z) : Z := match hw_get b d f h with Some x => h_id x | None => 0xffffffff end.

(** ** What enumeration builds *)
(** core/pci.py:297-352 [PciDevice] after [setup] *)
Record pfn := mkPf { p_id : pcie_id; p_type : Z; p_multi : bool; p_exp : option (Z * Z); p_bars : list (Z * Z); p_rom : Z * Z }.
(** core/pci.py:74-102 [PciBus]: number, primary, last number and the devices, with their subordinate buses *)
Inductive pbus := PBus (num pri last : Z) (devs : list (pfn * option pbus)).
Definition p_is_bridge (p : pfn) : bool := (p_type p =? 1) || (p_type p =? 2).
(** core/pci.py:117-122 with 392-399; [None]: the host bridge *)
Definition only_one_child (br : option pfn) : bool :=
  match br with
  | None => false
  | Some b => match p_exp b with Some (ty, _) => (ty =? 4) || (ty =? 6) || (ty =? 8) | None => false end
  end.

(** core/pci.py:774-788 *)
Definition p_at {A} (k : Z -> Z -> Z -> A) (p : pfn) : A := k (bus (p_id p)) (device (p_id p)) (func (p_id p)).
Definition get_mps (p : pfn) (h : hw) : Z := match p_at hw_get p h with Some x => h_mps x | None => 7 end.
Definition set_mps (p : pfn) (mpss v : Z) (h : hw) : res hw :=
  if (v <? 0) || (v >? 5) || (v >? mpss) then Err ValueError else Ok (p_at (hw_map (put_mps v)) p h).
(** core/pci.py:401-404, 721-757; [m]: [max_payload_size] of the host bridge, [br]: the bridge of the bus ([None]: the host bridge, which is on the
    root bus) *)
Definition configure_mps (m : Z) (br : option pfn) (p : pfn) (h : hw) : res hw :=
  match p_exp p with
  | None => Ok h
  | Some (ty, mpss) =>
    if ty =? 9 then set_mps p mpss mpss h
    else if ty =? 4 then match br with None => set_mps p mpss m h | Some _ => Err AttributeError end
    else
      match br with
      | None => Ok h
      | Some b =>
        match p_exp b with
        | None => Ok h
        | Some (bty, bmpss) =>
          let mps := get_mps p h in
          let parent := get_mps b h in
          if mps =? parent then Ok h
          else
            '(h, parent) <- (if (mpss <? parent) && (bty =? 4) then h <- set_mps b bmpss (Z.min mpss bmpss) h ;; Ok (h, get_mps b h) else Ok (h, parent)) ;;
            set_mps p mpss (Z.min parent mpss) h
        end
      end
  end.
(** core/pci.py:180-186 with 623-676 [setup]: the function answers, so its registers are there; of [configure_device] the payload size, the
    rest (extended tags, SERR, MSI enables, CRS) does not matter here.  BARs are as [read_bars] finds them, see ModelPci.v. *)
Definition pfn_of (b d f : Z) (x : hfn) : pfn := mkPf (mkId b d f) (h_type x) (h_multi x) (h_exp x) (h_bars x) (h_rom x).
Definition setup (m : Z) (br : option pfn) (b d f : Z) (x : hfn) (h : hw) : res (hw * pfn) :=
  let p := pfn_of b d f x in
  h <- configure_mps m br p h ;; Ok (h, p).

(** ** Scan *)
(** core/pci.py:171-190: [for f in range(8)] *)
Fixpoint scan_functions (m : Z) (br : option pfn) (n d : Z) (fs : list Z) (h : hw) : res (hw * list pfn) :=
  match fs with
  | [] => Ok (h, [])
  | f :: fs =>
    match hw_get n d f h with
    | None => scan_functions m br n d fs h
    | Some x =>
      if h_id x =? 0xffffffff then scan_functions m br n d fs h
      else
        '(h, p) <- setup m br n d f x h ;;
        if p_multi p then '(h, ps) <- scan_functions m br n d fs h ;; Ok (h, p :: ps) else Ok (h, [p])
    end
  end.
(** core/pci.py:161-166: no device there; a device that goes on to answer with CRS is given up *)
Definition no_device (v : Z) : bool := (v =? 0) || (v =? 0xffffffff) || (v =? 0xffff0000) || (v =? 0x0000ffff) || (v =? 0xffff0001).
(** core/pci.py:150-193: [for d in range(32)] *)
Fixpoint scan_devices (m : Z) (br : option pfn) (n : Z) (ds : list Z) (h : hw) : res (hw * list pfn) :=
  match ds with
  | [] => Ok (h, [])
  | d :: ds =>
    if (n =? 0) && (d =? 0) then scan_devices m br n ds h
    else
      _ <- pcie_id_new n d 0 ;;
      if no_device (read_id h n d 0) then scan_devices m br n ds h
      else
        '(h, ps) <- scan_functions m br n d (zrange 8) h ;;
        if only_one_child br then Ok (h, ps)
        else '(h, qs) <- scan_devices m br n ds h ;; Ok (h, ps ++ qs)
  end.
(** core/pci.py:195-202 with 204-230.  [scan] is [child.scan].  [last_bus_num] is 255 until the child is scanned. *)
Fixpoint scan_bridges (scan : pfn -> Z -> hw -> res (hw * list (pfn * option pbus) * Z)) (n : Z) (ps : list pfn) (last : Z) (h : hw) :
  res (hw * list (pfn * option pbus) * Z) :=
  match ps with
  | [] => Ok (h, [], last)
  | p :: ps =>
    if p_is_bridge p then
      let next := last + 1 in
      let h := p_at (hw_map (put_buses n next 255)) p h in
      '(h, ds, last) <- scan p next h ;;
      let h := p_at (hw_map (put_buses n next last)) p h in
      '(h, r, last') <- scan_bridges scan n ps last h ;;
      Ok (h, (p, Some (PBus next n last ds)) :: r, last')
    else '(h, r, last) <- scan_bridges scan n ps last h ;; Ok (h, (p, None) :: r, last)
  end.
(** core/pci.py:145-202 *)
Fixpoint scan (fuel : nat) (m : Z) (br : option pfn) (n : Z) (h : hw) : res (hw * list (pfn * option pbus) * Z) :=
  match fuel with
  | O => Err OutOfFuel
  | S fuel =>
    '(h, ps) <- scan_devices m br n (zrange 32) h ;;
    scan_bridges (fun p => scan fuel m (Some p)) n ps n h
  end.
(** core/pci.py:63-65: the root bus; bus numbers above 255 raise, so the depth is at most 257 *)
Definition scan_root (m : Z) (h : hw) : res (hw * pbus) :=
  '(h, ds, last) <- scan 257 m None 0 h ;; Ok (h, PBus 0 0 last ds).
