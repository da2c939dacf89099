(** Configuration space of a function (PCI 6.1, 6.2; PCI-to-PCI bridge 3.2; PCIe 7.5.1): which bits of
    the registers can be written, and what the registers show. *)
From Verif Require Import Base ModelAttrs ModelCaps ModelCapList ModelConfig SpecRegs SpecCaps.

(** Bits a write can set (RW) or clear (W1C) in the registers before the capabilities: header type 0
    and 1, and the part common to both.  The writable bits of BARs and expansion ROM depend on their size. *)
Definition common_rw : list (Z * Z) := [(1, 0x0547); (3, 0x400000ff)].
Definition common_w1c : list (Z * Z) := [(1, 0xf9000000)].
Definition bar_bits (s : attrs) (i : Z) : Z := Z.land (s (fn_bar_mask i)) 0xffffffff.
Definition rom_bits (s : attrs) : Z := Z.lor (Z.land (s fn_expansion_rom_addr_mask) 0xfffff800) 1.
Definition fn_rw (s : attrs) : Z -> Z := tab (common_rw ++ [(15, 0xff)]).
Definition fn_w1c (s : attrs) : Z -> Z := tab common_w1c.
Definition ep_rw (s : attrs) : Z -> Z := tab (common_rw ++
  [(4, bar_bits s 0); (5, bar_bits s 1); (6, bar_bits s 2); (7, bar_bits s 3); (8, bar_bits s 4); (9, bar_bits s 5);
   (12, rom_bits s); (15, 0xff)]).
Definition ep_w1c (s : attrs) : Z -> Z := tab common_w1c.
Definition br_rw (s : attrs) : Z -> Z := tab (common_rw ++
  [(4, bar_bits s 0); (5, bar_bits s 1); (6, 0x00ffffff); (7, 0xf0f0); (8, 0xfff0fff0); (9, 0xfff0fff0);
   (10, 0xffffffff); (11, 0xffffffff); (12, 0xffffffff); (14, rom_bits s); (15, 0x004300ff)]).
Definition br_w1c (s : attrs) : Z -> Z := tab (common_w1c ++ [(7, 0xf9000000)]).

(** MSI (PCI 6.8.1): the position of the registers depends on the capabilities of the function. *)
Definition msi_rw (s : attrs) (r : Z) : Z :=
  let a64 := negb (s ms_msi_64bit_address_capable =? 0) in
  let ext := negb (s ms_msi_extended_message_data_capable =? 0) in
  let msk := negb (s ms_msi_per_vector_mask_capable =? 0) in
  if r =? 0 then if ext then 0x04710000 else 0x00710000
  else if r =? 1 then 0xfffffffc
  else if a64 && (r =? 2) then 0xffffffff
  else if r =? (if a64 then 3 else 2) then if ext then 0xffffffff else 0xffff
  else if msk && (r =? (if a64 then 4 else 3)) then 0xffffffff
  else 0.
(** MSI-X (PCI 6.8.2) *)
Definition msix_rw : Z -> Z := tab [(0, 0xc0000000)].

(** The masks of a capability; [None]: a class of the user.  The third mask are the bits in which the code
    is known to be wrong (see C26, C27 and the MSI theorems). *)
Definition cap_masks (c : cap) : option ((Z -> Z) * (Z -> Z) * (Z -> Z)) :=
  match c_kind c with
  | KPm => Some (pm_rw, pm_w1c, tab [(1, 0x6000)])
  | KPcie => Some (pcie_rw, pcie_w1c, tab [(6, 0x01000800); (12, 0x80200000)])
  | KPcieExt => Some (pcie_ext_rw, pcie_ext_w1c, tab [])
  | KMsi => Some (msi_rw (c_attr c), tab [], tab [(0, 0x04000000)])
  | KMsix => Some (msix_rw, tab [], tab [])
  | KAer => Some (aer_rw, aer_w1c, tab [])
  | KUser _ _ _ => None
  end.
(** The capability whose range holds register [r], the first one in the list if there are several. *)
Definition owner (f : fnc) (r : Z) : option nat :=
  if (16 <=? r) && (r <? 64) then find_by_reg (f_heap f) (f_caps f) r
  else if (64 <=? r) && (r <? 1024) then find_by_reg (f_heap f) (f_ecaps f) r
  else None.
(** The masks of register [r] of a function, given those of the first 16 registers. *)
Definition cfg_masks (rw w1c : attrs -> Z -> Z) (exc : Z -> Z) (f : fnc) (r : Z) : option (Z * Z * Z) :=
  if r <? 16 then Some (rw (f_attr f) r, w1c (f_attr f) r, exc r)
  else match owner f r with
       | None => Some (0, 0, 0)
       | Some i => match cap_masks (f_heap f i) with
                   | None => None
                   | Some (a, b, c) => let o := r - off (f_heap f i) in Some (a o, b o, c o)
                   end
       end.
(** Every write changes only the addressed register, and that one as its masks say. *)
Definition config_follow (read : fnc -> Z -> res (option Z)) (write : Z -> Z -> Z -> fnc -> fnc)
  (masks : fnc -> Z -> option (Z * Z * Z)) : Prop :=
  forall f reg data be r v rw w1c exc, 0 <= be < 16 -> read f r = Ok (Some v) -> masks f r = Some (rw, w1c, exc) ->
  exists v', read (write reg data be f) r = Ok (Some v') /\ masks (write reg data be f) r = Some (rw, w1c, exc) /\
    if r =? reg then
      forall i, 0 <= i -> Z.testbit exc i = false -> Z.testbit v' i = upd_bit rw w1c be data v i
    else v' = v.

(** What the first 16 registers show. *)
Definition common_layout (r : Z) : list fld :=
  if r =? 0 then [ Fld 0 16 (Num fn_vendor_id); Fld 16 16 (Num fn_device_id) ]
  else if r =? 1 then
    [ Fld 0 1 (Flag fn_io_space_enable); Fld 1 1 (Flag fn_memory_space_enable); Fld 2 1 (Flag fn_bus_master_enable);
      Fld 6 1 (Flag fn_parity_error_response_enable); Fld 8 1 (Flag fn_serr_enable); Fld 10 1 (Flag fn_interrupt_disable);
      Fld 19 1 (Flag fn_interrupt_status); Fld 20 1 (Flag fn_capabilities_list);
      Fld 24 1 (Flag fn_master_data_parity_error); Fld 27 1 (Flag fn_signaled_target_abort);
      Fld 28 1 (Flag fn_received_target_abort); Fld 29 1 (Flag fn_received_master_abort);
      Fld 30 1 (Flag fn_signaled_system_error); Fld 31 1 (Flag fn_detected_parity_error) ]
  else if r =? 2 then [ Fld 0 8 (Num fn_revision_id); Fld 8 24 (Num fn_class_code) ]
  else if r =? 3 then
    [ Fld 0 8 (Num fn_cache_line_size); Fld 8 8 (Num fn_latency_timer); Fld 16 7 (Num fn_header_layout);
      Fld 23 1 (Flag fn_multifunction_device); Fld 24 4 (Num fn_bist_completion_code); Fld 30 1 (Flag fn_start_bist);
      Fld 31 1 (Flag fn_bist_capable) ]
  else if r =? 13 then [ Fld 0 8 (Num fn_capabilities_ptr) ]
  else if r =? 15 then [ Fld 0 8 (Num fn_interrupt_line); Fld 8 8 (Num fn_interrupt_pin) ]
  else [].
Definition rom_layout : list fld := [ Fld 0 1 (Flag fn_expansion_rom_enable); Fld 11 21 (Part fn_expansion_rom_addr 11) ].
Definition ep_layout (r : Z) : list fld :=
  if (4 <=? r) && (r <? 10) then [ Fld 0 32 (Num (fn_bar (r - 4))) ]
  else if r =? 11 then [ Fld 0 16 (Num fn_subsystem_vendor_id); Fld 16 16 (Num fn_subsystem_id) ]
  else if r =? 12 then rom_layout
  else common_layout r.
Definition br_layout (r : Z) : list fld :=
  if (4 <=? r) && (r <? 6) then [ Fld 0 32 (Num (fn_bar (r - 4))) ]
  else if r =? 6 then
    [ Fld 0 8 (Num fn_pri_bus_num); Fld 8 8 (Num fn_sec_bus_num); Fld 16 8 (Num fn_sub_bus_num); Fld 24 8 (Num fn_sec_lat_timer) ]
  else if r =? 7 then
    [ Fld 0 4 (Num fn_io_addr_capability); Fld 4 4 (Part fn_io_base 12);
      Fld 8 4 (Num fn_io_addr_capability); Fld 12 4 (Part fn_io_limit 12);
      Fld 24 1 (Flag fn_sec_master_data_parity_error); Fld 27 1 (Flag fn_sec_signaled_target_abort);
      Fld 28 1 (Flag fn_sec_received_target_abort); Fld 29 1 (Flag fn_sec_received_master_abort);
      Fld 30 1 (Flag fn_sec_received_system_error); Fld 31 1 (Flag fn_sec_detected_parity_error) ]
  else if r =? 8 then [ Fld 4 12 (Part fn_mem_base 20); Fld 20 12 (Part fn_mem_limit 20) ]
  else if r =? 9 then
    [ Fld 0 4 (Const 1); Fld 4 12 (Part fn_prefetchable_mem_base 20); Fld 16 4 (Const 1); Fld 20 12 (Part fn_prefetchable_mem_limit 20) ]
  else if r =? 10 then [ Fld 0 32 (Part fn_prefetchable_mem_base 32) ]
  else if r =? 11 then [ Fld 0 32 (Part fn_prefetchable_mem_limit 32) ]
  else if r =? 12 then [ Fld 0 16 (Part fn_io_base 16); Fld 16 16 (Part fn_io_limit 16) ]
  else if r =? 14 then rom_layout
  else if r =? 15 then
    [ Fld 0 8 (Num fn_interrupt_line); Fld 8 8 (Num fn_interrupt_pin); Fld 16 1 (Flag fn_bridge_parity_error_response_enable);
      Fld 17 1 (Flag fn_bridge_serr_enable); Fld 22 1 (Flag fn_secondary_bus_reset) ]
  else common_layout r.
(** MSI and MSI-X *)
Definition msi_layout (s : attrs) (r : Z) : list fld :=
  let a64 := negb (s ms_msi_64bit_address_capable =? 0) in
  let ext := negb (s ms_msi_extended_message_data_capable =? 0) in
  let msk := negb (s ms_msi_per_vector_mask_capable =? 0) in
  if r =? 0 then
    [ Fld 16 1 (Flag ms_msi_enable); Fld 17 3 (Num ms_msi_multiple_message_capable); Fld 20 3 (Num ms_msi_multiple_message_enable);
      Fld 23 1 (Flag ms_msi_64bit_address_capable); Fld 24 1 (Flag ms_msi_per_vector_mask_capable);
      Fld 25 1 (Flag ms_msi_extended_message_data_capable); Fld 26 1 (Flag ms_msi_extended_message_data_enable) ]
  else if r =? 1 then [ Fld 2 30 (Part ms_msi_message_address 2) ]
  else if a64 && (r =? 2) then [ Fld 0 32 (Part ms_msi_message_address 32) ]
  else if r =? (if a64 then 3 else 2) then [ Fld 0 (if ext then 32 else 16) (Num ms_msi_message_data) ]
  else if msk && (r =? (if a64 then 4 else 3)) then [ Fld 0 32 (Num ms_msi_mask_bits) ]
  else if msk && (r =? (if a64 then 5 else 4)) then [ Fld 0 32 (Num ms_msi_pending_bits) ]
  else [].
Definition msix_layout (r : Z) : list fld :=
  if r =? 0 then [ Fld 16 11 (Num mx_msix_table_size); Fld 30 1 (Flag mx_msix_function_mask); Fld 31 1 (Flag mx_msix_enable) ]
  else if r =? 1 then [ Fld 0 3 (Num mx_msix_table_bar_indicator_register); Fld 3 29 (Part mx_msix_table_offset 3) ]
  else if r =? 2 then [ Fld 0 3 (Num mx_msix_pba_bar_indicator_register); Fld 3 29 (Part mx_msix_pba_offset 3) ]
  else [].
