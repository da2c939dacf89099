(** core/pci.py: the assignment of addresses to the BARs and windows of an enumerated tree (ModelEnum.v). *)
From Verif Require Import Base ModelUtils ModelEnum.

(** ** What is handed out *)
Inductive kind := Io | Mem | Pref.
(** core/pci.py:45-50, 333-338: [io_limit], [mem_limit] and [prefetchable_mem_limit] of a bridge while its bus is filled *)
Record lims := mkL { l_io : Z; l_mem : Z; l_pref : Z }.
Definition lim (k : kind) (l : lims) : Z := match k with Io => l_io l | Mem => l_mem l | Pref => l_pref l end.
Definition put_lim (k : kind) (v : Z) (l : lims) : lims :=
  match k with
  | Io => mkL v (l_mem l) (l_pref l)
  | Mem => mkL (l_io l) v (l_pref l)
  | Pref => mkL (l_io l) (l_mem l) v
  end.
(** One allocation: the register, [bar_addr], [bar_size] and the dwords written from the register on.  The address space windows
    ([create_window]) that only serve the host's accesses are left out. *)
Record alloc := mkA { a_reg : Z; a_kind : kind; a_addr : Z; a_size : Z; a_dws : list Z }.
(** core/pci.py:1169-1172, 1193-1204, 1230-1233, 1258-1261: align and allocate *)
Definition take (k : kind) (size : Z) (l : lims) : Z * lims :=
  let addr := align (lim k l) (size - 1) in (addr, put_lim k (addr + size) l).
(** core/pci.py:446-456, 467-468 with [int.to_bytes] *)
Definition dword (v : Z) : res Z := if (0 <=? v) && (v <? 2 ^ 32) then Ok v else Err OverflowError.

(** ** BARs *)
(** core/pci.py:1153-1251, from the register [reg] on; [bars]: [bar_raw] and [bar_size] of the rest *)
Fixpoint assign_bars (reg : Z) (bars : list (Z * Z)) (l : lims) : res (list alloc * lims) :=
  match bars with
  | [] => Ok ([], l)
  | (raw, size) :: rest =>
    if size =? 0 then assign_bars (reg + 4) rest l
    else if Z.testbit raw 0 then
      let '(addr, l) := take Io size l in
      d <- dword (Z.lor (Z.land raw 3) addr) ;;
      '(r, l) <- assign_bars (reg + 4) rest l ;;
      Ok (mkA reg Io addr size [d] :: r, l)
    else if Z.testbit raw 2 then
      match rest with
      | [] => Err PyException
      | _ :: rest =>
        let k := if Z.testbit raw 3 then Pref else Mem in
        let '(addr, l) := take k size l in
        let v := Z.lor (Z.land raw 15) addr in
        '(r, l) <- assign_bars (reg + 8) rest l ;;
        Ok (mkA reg k addr size [Z.land v 0xffffffff; Z.land (Z.shiftr v 32) 0xffffffff] :: r, l)
      end
    else
      let '(addr, l) := take Mem size l in
      d <- dword (Z.lor (Z.land raw 15) addr) ;;
      '(r, l) <- assign_bars (reg + 4) rest l ;;
      Ok (mkA reg Mem addr size [d] :: r, l)
  end.
(** core/pci.py:1253-1276 *)
Definition assign_rom (reg : Z) (rom : Z * Z) (l : lims) : res (list alloc * lims) :=
  let '(raw, size) := rom in
  if size =? 0 then Ok ([], l)
  else
    let '(addr, l) := take Mem size l in
    d <- dword (Z.lor (Z.land raw 0x7ff) addr) ;;
    Ok ([mkA reg Mem addr size [d]], l).
(** core/pci.py:1049-1060.  [bar_raw] has (at least) [bar_cnt] entries, see ModelPci.v [read_bars]. *)
Definition assign_fn (p : pfn) (l : lims) : res (list alloc * lims) :=
  let go cnt rom := '(a, l) <- assign_bars 0x10 (firstn cnt (p_bars p)) l ;; '(b, l) <- assign_rom rom (p_rom p) l ;; Ok (a ++ b, l) in
  if p_type p =? 0 then go 6%nat 0x30 else if p_type p =? 1 then go 2%nat 0x38 else Ok ([], l).

(** ** Bridges *)
(** What is written to the registers 0x1c (two bytes), 0x30, 0x20, 0x24 (two halfwords each), 0x28 and 0x2c of a bridge *)
Record bregs := mkR { r_io : Z * Z; r_io_upper : Z * Z; r_mem : Z * Z; r_pref : Z * Z; r_pref_base_upper : Z; r_pref_limit_upper : Z }.
Definition fits (n v : Z) : res Z := if (0 <=? v) && (v <? 2 ^ n) then Ok v else Err StructError.
(** core/pci.py:1278-1297 *)
Definition setup_bridge (base limit : lims) : res bregs :=
  ub <- fits 16 (Z.shiftr (l_io base) 16) ;;
  ul <- fits 16 (Z.shiftr (l_io limit) 16) ;;
  pb <- fits 32 (Z.shiftr (l_pref base) 32) ;;
  pl <- fits 32 (Z.shiftr (l_pref limit) 32) ;;
  Ok (mkR (Z.land (Z.shiftr (l_io base) 8) 0xf0, Z.land (Z.shiftr (l_io limit) 8) 0xf0) (ub, ul)
          (Z.land (Z.shiftr (l_mem base) 16) 0xfff0, Z.land (Z.shiftr (l_mem limit) 16) 0xfff0)
          (Z.land (Z.shiftr (l_pref base) 16) 0xfff0, Z.land (Z.shiftr (l_pref limit) 16) 0xfff0) pb pl).
(** core/pci.py:245-248 and 254-256 *)
Definition round (l : lims) : lims := mkL (align (l_io l) 0xfff) (align (l_mem l) 0xfffff) (align (l_pref l) 0xfffff).
Definition less1 (l : lims) : lims := mkL (l_io l - 1) (l_mem l - 1) (l_pref l - 1).

(** ** The tree *)
(** A function with its allocations and, if it is a bridge, its windows and the functions below it *)
Inductive adev := ADev (p : pfn) (own : list alloc) (sub : option (bregs * list adev)).
(** core/pci.py:232-258; [l]: the limits of the bridge of the bus *)
Fixpoint assign_bus (b : pbus) (l : lims) : res (list adev * lims) :=
  match b with
  | PBus _ _ _ ds =>
    (fix go (ds : list (pfn * option pbus)) (l : lims) : res (list adev * lims) :=
       match ds with
       | [] => Ok ([], l)
       | (p, o) :: ds =>
         '(own, l) <- assign_fn p l ;;
         match o with
         | None => '(r, l') <- go ds l ;; Ok (ADev p own None :: r, l')
         | Some c =>
           '(kids, l1) <- assign_bus c l ;;
           let l1 := round l1 in
           regs <- setup_bridge l (less1 l1) ;;
           '(r, l') <- go ds l1 ;;
           Ok (ADev p own (Some (regs, kids)) :: r, l')
         end
       end) ds l
  end.
