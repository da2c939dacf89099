(** The functions of the vendor device models: which capabilities they have and how these are configured. *)
From Verif Require Import Base ModelUtils ModelTlp ModelAttrs ModelCaps ModelCapList ModelConfig ModelFunction.

Inductive vendor := VUs | VUsp | VS10 | VPtile.
(** The capability objects of a function: core/function.py:116-120 (0 and 1), xilinx/us/us_model.py:71-103,
    xilinx/us/usp_model.py:109-139, intel/s10/s10_model.py:59-89, intel/ptile/ptile_model.py:72-110 (the others).  All other
    numbers stand for further objects that are not registered. *)
Definition i_pm : nat := 0.
Definition i_pcie : nat := 1.
Definition i_msi : nat := 2.
Definition i_msix : nat := 3.
Definition i_aer : nat := 4.
Definition i_pxc : nat := 5.
Definition vendor_heap : heap := fun i =>
  match i with
  | 0%nat => pm_cap_new
  | 1%nat => pcie_cap_new
  | 2%nat => c_set_attr (aset ms_msi_64bit_address_capable 1 (aset ms_msi_per_vector_mask_capable 0 msc_init)) msi_cap_new
  | 3%nat => msix_cap_new
  | 4%nat => aer_cap_new
  | 5%nat => pcie_ext_cap_new
  | _ => pm_cap_new
  end.
(** The calls of [register_capability] in the constructors, in order (same lines).  The two extended capabilities are registered with
    [register_capability], not with [register_extended_capability]. *)
Definition vendor_regs (v : vendor) : list (nat * option Z) :=
  [(i_pm, None); (i_pcie, None)] ++
  match v with
  | VUs => [(i_pm, Some 0x20); (i_msi, Some 0x24); (i_msix, Some 0x2c); (i_pcie, Some 0x30); (i_aer, Some 0x40); (i_pxc, Some 0xC0)]
  | VUsp => [(i_pm, Some 0x10); (i_msi, Some 0x12); (i_msix, Some 0x18); (i_pcie, Some 0x1c); (i_aer, Some 0x40); (i_pxc, Some 0x70)]
  | VS10 => [(i_pm, Some 0x10); (i_msi, Some 0x14); (i_pcie, Some 0x1c); (i_msix, Some 0x2c); (i_aer, Some 0x40); (i_pxc, Some 0x62)]
  | VPtile => [(i_pm, Some 0x10); (i_msi, Some 0x14); (i_msix, Some 0x1c); (i_pcie, Some 0x2c); (i_aer, Some 0x40); (i_pxc, Some 0x62)]
  end.
Definition vendor_new (v : vendor) (id : pcie_id) : fnc :=
  fold_left (fun f '(i, o) => fn_register_capability i o f) (vendor_regs v) (mkFn endpoint_init vendor_heap [] [] id).

(** The parameters of the device model for one function ([None]: not enabled): the number of MSI vectors; size of the MSI-X table, its
    BAR and offset, BAR and offset of the pending bit array. *)
Record msix_cfg := mkMx { mx_size : Z; mx_bir : Z; mx_offset : Z; mx_pba_bir : Z; mx_pba_offset : Z }.
Record pf_cfg := mkPf { pf_msi : option Z; pf_msix : option msix_cfg }.
(** [c.a = x] for attributes of the capability object [i] *)
Definition cap_assign (i : nat) (l : list (attr * Z)) (f : fnc) : fnc :=
  with_heap (fun h => hset i (c_set_attr (fold_left (fun s '(a, x) => aset a x s) l (c_attr (h i))) (h i)) h) f.
(** What is subtracted from the number of vectors for physical function [pf]: us_model.py:686, 703, usp_model.py:796, 813, 830, 847,
    s10_model.py:522, 539, 556, 573, ptile_model.py:673, 690, 707, 724. *)
Definition msi_less (v : vendor) (pf : Z) : Z :=
  match v with
  | VUs | VPtile => 1
  | VUsp | VS10 => if pf =? 2 then 2 else if pf =? 3 then 3 else 1
  end.
(** us_model.py:685-718, usp_model.py:795-862, s10_model.py:521-588, ptile_model.py:672-739, for one function.  [mps]:
    [max_payload_size], [tag]: [enable_extended_tag]. *)
Definition vendor_fn (v : vendor) (id : pcie_id) (pf mps tag : Z) (c : pf_cfg) : fnc :=
  let f := vendor_new v id in
  let f := match pf_msi c with
           | Some n => cap_assign i_msi [(ms_msi_multiple_message_capable, bit_length (n - msi_less v pf))] f
           | None => fn_deregister_capability i_msi f
           end in
  let f := match pf_msix c with
           | Some x => cap_assign i_msix [(mx_msix_table_size, mx_size x); (mx_msix_table_bar_indicator_register, mx_bir x);
               (mx_msix_table_offset, mx_offset x); (mx_msix_pba_bar_indicator_register, mx_pba_bir x); (mx_msix_pba_offset, mx_pba_offset x)] f
           | None => fn_deregister_capability i_msix f
           end in
  cap_assign i_pcie [(pe_max_payload_size_supported, bit_length (mps / 128 - 1)); (pe_extended_tag_supported, tag)] f.
