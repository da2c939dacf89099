(** core/pci.py:232-258, 1049-1060, 1153-1297, core/rc.py:867-895: the assignment of addresses as the host does it, by configuration writes ([cw], as in ModelEnumCfg.v).  All addresses of one function are computed
    (ModelAssign.v) before the first of them is written, and all values of [setup_bridge]; in the code each is written before the next is computed, which makes no difference since the writes do not depend on it
    and the state is given up with an exception. *)
From Verif Require Import Base ModelUtils ModelCapList ModelConfig ModelHost ModelPci ModelEnum ModelAssign ModelTree ModelScan ModelEnumCfg.

Section Assign.
Context {T : Type} (cw : pcie_id -> Z -> list Z -> T -> res T).
(** core/pci.py:1184, 1221-1222, 1249, 1275 *)
Fixpoint put_dws (dev : pcie_id) (reg : Z) (l : list Z) (s : T) : res T :=
  match l with [] => Ok s | d :: r => s <- cfg_write_dword (cw dev) reg d s ;; put_dws dev (reg + 4) r s end.
Fixpoint put_allocs (dev : pcie_id) (own : list alloc) (s : T) : res T :=
  match own with [] => Ok s | a :: r => s <- put_dws dev (a_reg a) (a_dws a) s ;; put_allocs dev r s end.
(** core/pci.py:1278-1297 with [struct.pack]; the ranges are checked in [setup_bridge] *)
Definition put_windows (dev : pcie_id) (r : bregs) (s : T) : res T :=
  let two n v := le_bytes n (fst v) ++ le_bytes n (snd v) in
  s <- cw dev 0x01c (two 1%nat (r_io r)) s ;;
  s <- cw dev 0x030 (two 2%nat (r_io_upper r)) s ;;
  s <- cw dev 0x020 (two 2%nat (r_mem r)) s ;;
  s <- cw dev 0x024 (two 2%nat (r_pref r)) s ;;
  s <- cw dev 0x028 (le_bytes 4 (r_pref_base_upper r)) s ;;
  cw dev 0x02c (le_bytes 4 (r_pref_limit_upper r)) s.
(** core/pci.py:232-258 with 1049-1060; as [assign_bus], with the writes *)
Fixpoint cfg_assign (b : pbus) (l : lims) (s : T) : res (T * list adev * lims) :=
  match b with
  | PBus _ _ _ ds =>
    (fix go (ds : list (pfn * option pbus)) (l : lims) (s : T) : res (T * list adev * lims) :=
       match ds with
       | [] => Ok (s, [], l)
       | (p, o) :: ds =>
         '(own, l) <- assign_fn p l ;;
         s <- put_allocs (p_id p) own s ;;
         match o with
         | None => '(s, r, l') <- go ds l s ;; Ok (s, ADev p own None :: r, l')
         | Some c =>
           '(s, kids, l1) <- cfg_assign c l s ;;
           let l1 := round l1 in
           regs <- setup_bridge l (less1 l1) ;;
           s <- put_windows (p_id p) regs s ;;
           '(s, r, l') <- go ds l1 s ;;
           Ok (s, ADev p own (Some (regs, kids)) :: r, l')
         end
       end) ds l s
  end.
End Assign.
(** core/rc.py:867-895: [enumerate], with the bases [l] *)
Definition open_net (l l' : lims) (z : net) : net := match z with Net f br zs => Net (open_host l l' f) br zs end.
Definition cfg_enumerate (cr : pcie_id -> Z -> Z -> net -> res (net * list Z)) (cw : pcie_id -> Z -> list Z -> net -> res net) (fuel : nat) (m : Z) (l : lims) (z : net) : res (net * pbus * list adev * lims) :=
  '(z, b) <- cfg_scan_root cr cw fuel m z ;;
  '(z, n, l') <- cfg_assign cw b l z ;;
  Ok (open_net l l' z, b, n, l').
