(** The configuration outputs of the Intel device models: intel/s10/s10_model.py:853-1022 [_run_cfg_out_logic_htile], [_run_cfg_out_logic_ltile],
    intel/ptile/ptile_model.py:987-1184 [_run_cfg_out_logic].

    A function is reduced to its ID and the attributes of the objects the coroutines look at: the function itself, [pcie_cap], [pm_cap], [msi_cap],
    [msix_cap] and [aer_ext_cap]. *)
From Verif Require Import Base ModelUtils ModelTlp ModelAttrs ModelCaps ModelConfig.

Record cfn := mkCfn { w_id : pcie_id; w_fn : attrs; w_pe : attrs; w_pm : attrs; w_ms : attrs; w_mx : attrs; w_ae : attrs }.
(** [bool(x) << k], [(x & m) << k] and [val = a; val |= b; ...] *)
Definition fb (x k : Z) : Z := Z.shiftl (Z.b2z (zbool x)) k.
Definition fm (x m k : Z) : Z := Z.shiftl (Z.land x m) k.
Definition ors (l : list Z) : Z := match l with [] => 0 | x :: l => fold_left Z.lor l x end.
(** [await func.aer_ext_cap.read_register(r)] *)
Definition ae_reg (f : cfn) (r : Z) : Z := match aec_read (w_ae f) r with Some v => v | None => 0 end.

(** s10_model.py:853-943: the value of [tl_cfg_ctl] for each address *)
Definition htile_word (f : cfn) (k : Z) : Z :=
  let fn := w_fn f in let pe := w_pe f in let ms := w_ms f in
  if k =? 0 then ors [  (* 861-878 *)
    fb (pe pe_ido_request_enable) 31; fb (pe pe_enable_no_snoop) 30; fb (pe pe_enable_relaxed_ordering) 29;
    fm (device (w_id f)) 0x1f 24; fm (bus (w_id f)) 0xff 16;
    fb (fn fn_memory_space_enable) 15; fb (pe pe_ido_completion_enable) 14; fb (fn fn_parity_error_response_enable) 13; fb (fn fn_serr_enable) 12;
    fb (pe pe_fatal_error_reporting_enable) 11; fb (pe pe_non_fatal_error_reporting_enable) 10; fb (pe pe_correctable_error_reporting_enable) 9;
    fb (pe pe_unsupported_request_reporting_enable) 8; fb (fn fn_bus_master_enable) 7; fb (pe pe_extended_tag_field_enable) 6;
    fm (pe pe_max_read_request_size) 7 3; fm (pe pe_max_payload_size) 7 0]
  else if k =? 1 then ors [  (* 883-889 *)
    fb (w_pm f pm_no_soft_reset) 15; fb (pe pe_read_completion_boundary) 14; fb (fn fn_interrupt_disable) 13;
    fm (pe pe_interrupt_message_number) 0x1f 8; fb (pe pe_power_controller_control) 4; fm (pe pe_attention_indicator_control) 3 2; fm (pe pe_power_indicator_control) 3 0]
  else if k =? 2 then ors [  (* 894-898 *)
    fm (pe pe_current_link_speed) 0xf 28; fb (pe pe_ari_forwarding_enable) 7; fb (pe pe_atomic_op_requester_enable) 6]
  else if k =? 3 then Z.land (ms ms_msi_message_address) 0xffffffff
  else if k =? 4 then Z.land (Z.shiftr (ms ms_msi_message_address) 32) 0xffffffff
  else if k =? 5 then ms ms_msi_mask_bits
  else if k =? 6 then ors [  (* 917-926 *)
    fm (ms ms_msi_message_data) 0xffff 16;
    fb (pe pe_system_error_on_fatal_error_enable) 15; fb (pe pe_system_error_on_non_fatal_error_enable) 14; fb (pe pe_system_error_on_correctable_error_enable) 13;
    fm (w_ae f ae_advanced_error_interrupt_message_number) 0x1f 8; fb (w_mx f mx_msix_function_mask) 6; fb (w_mx f mx_msix_enable) 5;
    fm (ms ms_msi_multiple_message_enable) 7 2; fb (ms ms_msi_64bit_address_capable) 1; fb (ms ms_msi_enable) 0]
  else if k =? 7 then ae_reg f 2
  else if k =? 8 then ae_reg f 5
  else ae_reg f 3.
(** s10_model.py:945-1022 *)
Definition ltile_word (f : cfn) (k : Z) : Z :=
  let fn := w_fn f in let pe := w_pe f in let ms := w_ms f in
  if k =? 0 then ors [  (* 953-964 *)
    fb (pe pe_ido_request_enable) 31; fb (pe pe_enable_no_snoop) 30; fb (pe pe_enable_relaxed_ordering) 29;
    fm (device (w_id f)) 0x1f 24; fm (bus (w_id f)) 0xff 16;
    fb (fn fn_memory_space_enable) 15; fb (pe pe_ido_completion_enable) 14; fm (pe pe_negotiated_link_width) 0x3f 8;
    fb (fn fn_bus_master_enable) 7; fb (pe pe_extended_tag_field_enable) 6; fm (pe pe_max_read_request_size) 7 3; fm (pe pe_max_payload_size) 7 0]
  else if k =? 1 then ors [  (* 969-980 *)
    fb (pe pe_system_error_on_fatal_error_enable) 31; fb (pe pe_system_error_on_non_fatal_error_enable) 30; fb (pe pe_system_error_on_correctable_error_enable) 29;
    fm (w_ae f ae_advanced_error_interrupt_message_number) 0x1f 28; fm (pe pe_negotiated_link_width) 0x3f 18;
    fb (w_pm f pm_no_soft_reset) 17; fb (pe pe_read_completion_boundary) 16; fb (fn fn_interrupt_disable) 13;
    fm (pe pe_interrupt_message_number) 0x1f 8; fb (pe pe_power_controller_control) 4; fm (pe pe_attention_indicator_control) 3 2; fm (pe pe_power_indicator_control) 3 0]
  else if k =? 2 then ors [  (* 987-990 *)
    fm (pe pe_current_link_speed) 0xf 12; fb (pe pe_ari_forwarding_enable) 5; fb (pe pe_atomic_op_requester_enable) 4]
  else if k =? 3 then Z.land (ms ms_msi_message_address) 0xffffffff
  else if k =? 4 then Z.land (Z.shiftr (ms ms_msi_message_address) 32) 0xffffffff
  else if k =? 5 then ms ms_msi_mask_bits
  else if k =? 6 then ors [  (* 1009-1014 *)
    fm (ms ms_msi_message_data) 0xffff 16; fb (w_mx f mx_msix_function_mask) 6; fb (w_mx f mx_msix_enable) 5;
    fm (ms ms_msi_multiple_message_enable) 7 2; fb (ms ms_msi_64bit_address_capable) 1; fb (ms ms_msi_enable) 0]
  else ors [fm (pe pe_current_link_speed) 0xf 6; fm (pe pe_negotiated_link_width) 0x3f 0].
(** ptile_model.py:987-1184; [val] is the register read for the address before, for the upper halves of the AER registers (0x0F, 0x11, 0x13). *)
Definition ptile_word (f : cfn) (val k : Z) : Z :=
  let fn := w_fn f in let pe := w_pe f in let ms := w_ms f in
  if k =? 0 then ors [  (* 995-1006 *)
    fb (fn fn_memory_space_enable) 15; fb (pe pe_ido_completion_enable) 14; fb (fn fn_parity_error_response_enable) 13; fb (fn fn_serr_enable) 12;
    fb (pe pe_fatal_error_reporting_enable) 11; fb (pe pe_non_fatal_error_reporting_enable) 10; fb (pe pe_correctable_error_reporting_enable) 9;
    fb (pe pe_unsupported_request_reporting_enable) 8; fb (fn fn_bus_master_enable) 7; fb (pe pe_extended_tag_field_enable) 6;
    fm (pe pe_max_read_request_size) 7 3; fm (pe pe_max_payload_size) 7 0]
  else if k =? 1 then ors [  (* 1011-1015 *)
    fb (pe pe_ido_request_enable) 15; fb (pe pe_enable_no_snoop) 14; fb (pe pe_enable_relaxed_ordering) 13; fm (device (w_id f)) 0x1f 8; fm (bus (w_id f)) 0xff 0]
  else if k =? 2 then ors [  (* 1020-1026 *)
    fb (w_pm f pm_no_soft_reset) 15; fb (pe pe_read_completion_boundary) 14; fb (fn fn_interrupt_disable) 13;
    fm (pe pe_interrupt_message_number) 0x1f 8; fb (pe pe_power_controller_control) 4; fm (pe pe_attention_indicator_control) 3 2; fm (pe pe_power_indicator_control) 3 0]
  else if k =? 4 then ors [fb (pe pe_atomic_op_egress_blocking) 14; fb (pe pe_ari_forwarding_enable) 7; fb (pe pe_atomic_op_requester_enable) 6]
  else if k =? 5 then ors [fm (pe pe_current_link_speed) 0xf 12]
  else if k =? 6 then Z.land (ms ms_msi_message_address) 0xffff
  else if k =? 7 then Z.land (Z.shiftr (ms ms_msi_message_address) 16) 0xffff
  else if k =? 8 then Z.land (Z.shiftr (ms ms_msi_message_address) 32) 0xffff
  else if k =? 9 then Z.land (Z.shiftr (ms ms_msi_message_address) 48) 0xffff
  else if k =? 10 then Z.land (ms ms_msi_mask_bits) 0xffff
  else if k =? 11 then Z.land (Z.shiftr (ms ms_msi_mask_bits) 16) 0xffff
  else if k =? 12 then ors [  (* 1074-1083 *)
    fb (pe pe_system_error_on_fatal_error_enable) 15; fb (pe pe_system_error_on_non_fatal_error_enable) 14; fb (pe pe_system_error_on_correctable_error_enable) 13;
    fm (w_ae f ae_advanced_error_interrupt_message_number) 0x1f 8; fb (ms ms_msi_extended_message_data_enable) 7; fb (w_mx f mx_msix_function_mask) 6; fb (w_mx f mx_msix_enable) 5;
    fm (ms ms_msi_multiple_message_enable) 7 2; fb (ms ms_msi_64bit_address_capable) 1; fb (ms ms_msi_enable) 0]
  else if k =? 13 then Z.land (ms ms_msi_message_data) 0xffff
  else if k =? 14 then Z.land (ae_reg f 2) 0xffff
  else if k =? 16 then Z.land (ae_reg f 5) 0xffff
  else if k =? 18 then Z.land (ae_reg f 3) 0xffff
  else if (k =? 15) || (k =? 17) || (k =? 19) then Z.land (Z.shiftr val 16) 0xffff
  else if k =? 28 then Z.land (pe pe_negotiated_link_width) 0x3f
  else if k =? 29 then Z.land (Z.shiftr (ms ms_msi_message_data) 16) 0xffff
  else 0.
(** [val] after the segment for address [k]; only what the next segment uses *)
Definition ptile_val (f : cfn) (val k : Z) : Z := if k =? 14 then ae_reg f 2 else if k =? 16 then ae_reg f 5 else if k =? 18 then ae_reg f 3 else val.

(** ** The coroutines *)
Inductive tile := TileH | TileL | TileP.
Definition addresses (t : tile) : nat := match t with TileH => 10 | TileL => 8 | TileP => 32 end.
(** The [for] loop over the functions, about to show address [z_k] of function [z_i] of the list; [z_func] is the number in [tl_cfg_func].
    Each step sets the signals ([tl_cfg_func] only with address 0) and waits for a clock edge.  Python's list iterator looks at the list when it
    is advanced, so after the last function [z_i] is the length of the list until the next step. *)
Record zst := mkZ { z_i : nat; z_k : nat; z_func : Z; z_val : Z }.
Definition tl_word (t : tile) (f : cfn) (val k : Z) : Z := match t with TileH => htile_word f k | TileL => ltile_word f k | TileP => ptile_word f val k end.
Definition tl_step (t : tile) (fs : list cfn) (z : zst) : option (Z * Z * Z * zst) :=
  let i := if Nat.eqb (z_k z) 0 && Nat.leb (length fs) (z_i z) then 0%nat else z_i z in
  match nth_error fs i with
  | Some f =>
    let k := Z.of_nat (z_k z) in
    let fn := if Nat.eqb (z_k z) 0 then func (w_id f) else z_func z in
    let val := match t with TileP => ptile_val f (z_val z) k | _ => z_val z end in
    let next := if Nat.eqb (S (z_k z)) (addresses t) then mkZ (S i) 0 fn val else mkZ i (S (z_k z)) fn val in
    Some (fn, k, tl_word t f (z_val z) k, next)
  | None => None  (* no functions: the coroutine would loop for ever *)
  end.
(** What the signals show in the clock cycles in which the functions are [h]: (function, address, value). *)
Fixpoint tl_run (t : tile) (h : list (list cfn)) (z : zst) : list (Z * Z * Z) :=
  match h with
  | [] => []
  | fs :: h => match tl_step t fs z with Some (o, z') => o :: tl_run t h z' | None => [] end
  end.
(** The start of the coroutine. *)
Definition tl_start : zst := mkZ 0 0 0 0.
