(** Register layouts of the capability structures, from the PCI Express Base Specification and the PCI
    Power Management specification. *)
From Verif Require Import Base ModelAttrs ModelCaps SpecRegs.

(** ** PCI Express capability (PCIe 7.5.3) *)
Definition pcie_layout (r : Z) : list fld :=
  if r =? 0 then
    [ Fld 16 4 (Const 2); Fld 20 4 (Num pe_pcie_device_type); Fld 24 1 (Flag pe_pcie_slot_implemented);
      Fld 25 5 (Num pe_interrupt_message_number) ]
  else if r =? 1 then
    [ Fld 0 3 (Num pe_max_payload_size_supported); Fld 3 2 (Num pe_phantom_functions_supported);
      Fld 5 1 (Flag pe_extended_tag_supported); Fld 6 3 (Num pe_endpoint_l0s_acceptable_latency);
      Fld 9 3 (Num pe_endpoint_l1_acceptable_latency); Fld 15 1 (Flag pe_role_based_error_reporting);
      Fld 18 8 (Num pe_captured_slot_power_limit_value); Fld 26 2 (Num pe_captured_slot_power_limit_scale);
      Fld 28 1 (Flag pe_function_level_reset_capability) ]
  else if r =? 2 then
    [ Fld 0 1 (Flag pe_correctable_error_reporting_enable); Fld 1 1 (Flag pe_non_fatal_error_reporting_enable);
      Fld 2 1 (Flag pe_fatal_error_reporting_enable); Fld 3 1 (Flag pe_unsupported_request_reporting_enable);
      Fld 4 1 (Flag pe_enable_relaxed_ordering); Fld 5 3 (Num pe_max_payload_size);
      Fld 8 1 (Flag pe_extended_tag_field_enable); Fld 9 1 (Flag pe_phantom_functions_enable);
      Fld 10 1 (Flag pe_aux_power_pm_enable); Fld 11 1 (Flag pe_enable_no_snoop);
      Fld 12 3 (Num pe_max_read_request_size);
      Fld 16 1 (Flag pe_correctable_error_detected); Fld 17 1 (Flag pe_nonfatal_error_detected);
      Fld 18 1 (Flag pe_fatal_error_detected); Fld 19 1 (Flag pe_unsupported_request_detected);
      Fld 20 1 (Flag pe_aux_power_detected); Fld 21 1 (Flag pe_transactions_pending);
      Fld 22 1 (Flag pe_emergency_power_reduction_detected) ]
  else if r =? 3 then
    [ Fld 0 4 (Num pe_max_link_speed); Fld 4 6 (Num pe_max_link_width); Fld 10 2 (Num pe_aspm_support);
      Fld 12 3 (Num pe_l0s_exit_latency); Fld 15 3 (Num pe_l1_exit_latency);
      Fld 18 1 (Flag pe_clock_power_management); Fld 19 1 (Flag pe_surprise_down_error_reporting_capability);
      Fld 20 1 (Flag pe_data_link_layer_link_active_reporting_capable);
      Fld 21 1 (Flag pe_link_bandwidth_notification_capability);
      Fld 22 1 (Flag pe_aspm_optionality_compliance); Fld 24 8 (Num pe_port_number) ]
  else if r =? 4 then
    [ Fld 0 2 (Num pe_aspm_control); Fld 3 1 (Flag pe_read_completion_boundary); Fld 4 1 (Flag pe_link_disable);
      Fld 6 1 (Flag pe_common_clock_configuration); Fld 7 1 (Flag pe_extended_synch);
      Fld 8 1 (Flag pe_enable_clock_power_management); Fld 9 1 (Flag pe_hardware_autonomous_width_disable);
      Fld 10 1 (Flag pe_link_bandwidth_management_interrupt_enable);
      Fld 11 1 (Flag pe_link_autonomous_bandwidth_interrupt_enable);
      Fld 14 2 (Num pe_drs_signalling_control);
      Fld 16 4 (Num pe_current_link_speed); Fld 20 6 (Num pe_negotiated_link_width);
      Fld 27 1 (Flag pe_link_training); Fld 28 1 (Flag pe_slot_clock_configuration);
      Fld 29 1 (Flag pe_data_link_layer_link_active); Fld 30 1 (Flag pe_link_bandwidth_management_status);
      Fld 31 1 (Flag pe_link_autonomous_bandwidth_status) ]
  else if r =? 5 then
    [ Fld 0 1 (Flag pe_attention_button_present); Fld 1 1 (Flag pe_power_controller_present);
      Fld 2 1 (Flag pe_mrl_sensor_present); Fld 3 1 (Flag pe_attention_indicator_present);
      Fld 4 1 (Flag pe_power_indicator_present); Fld 5 1 (Flag pe_hot_plug_surprise);
      Fld 6 1 (Flag pe_hot_plug_capable); Fld 7 8 (Num pe_slot_power_limit_value);
      Fld 15 2 (Num pe_slot_power_limit_scale); Fld 17 1 (Flag pe_electromechanical_interlock_present);
      Fld 18 1 (Flag pe_no_command_completed_support); Fld 19 13 (Num pe_physical_slot_number) ]
  else if r =? 6 then
    [ Fld 0 1 (Flag pe_attention_button_pressed_enable); Fld 1 1 (Flag pe_power_fault_detected_enable);
      Fld 2 1 (Flag pe_mrl_sensor_changed_enable); Fld 3 1 (Flag pe_presence_detect_changed_enable);
      Fld 4 1 (Flag pe_command_completed_interrupt_enable); Fld 5 1 (Flag pe_hot_plug_interrupt_enable);
      Fld 6 2 (Num pe_attention_indicator_control); Fld 8 2 (Num pe_power_indicator_control);
      Fld 10 1 (Flag pe_power_controller_control); Fld 12 1 (Flag pe_data_link_layer_state_changed_enable); Fld 13 1 (Flag pe_auto_slot_power_limit_disable);
      Fld 16 1 (Flag pe_attention_button_pressed); Fld 17 1 (Flag pe_power_fault_detected);
      Fld 18 1 (Flag pe_mrl_sensor_changed); Fld 19 1 (Flag pe_presence_detect_changed);
      Fld 20 1 (Flag pe_command_completed); Fld 21 1 (Flag pe_mrl_sensor_state);
      Fld 22 1 (Flag pe_presence_detect_state); Fld 23 1 (Flag pe_electromechanical_interlock_status);
      Fld 24 1 (Flag pe_data_link_layer_state_changed) ]
  else if r =? 7 then
    [ Fld 0 1 (Flag pe_system_error_on_correctable_error_enable);
      Fld 1 1 (Flag pe_system_error_on_non_fatal_error_enable);
      Fld 2 1 (Flag pe_system_error_on_fatal_error_enable); Fld 3 1 (Flag pe_pme_interrupt_enable);
      Fld 4 1 (Flag pe_crs_software_visibility_enable); Fld 16 1 (Flag pe_crs_software_visibility) ]
  else if r =? 8 then
    [ Fld 0 16 (Num pe_pme_requester_id); Fld 16 1 (Flag pe_pme_status); Fld 17 1 (Flag pe_pme_pending) ]
  else if r =? 9 then
    [ Fld 0 4 (Num pe_completion_timeout_ranges_supported); Fld 4 1 (Flag pe_completion_timeout_disable_supported);
      Fld 5 1 (Flag pe_ari_forwarding_supported); Fld 6 1 (Flag pe_atomic_op_forwarding_supported);
      Fld 7 1 (Flag pe_atomic_op_32_bit_completer_supported); Fld 8 1 (Flag pe_atomic_op_64_bit_completer_supported);
      Fld 9 1 (Flag pe_cas_128_bit_completer_supported); Fld 10 1 (Flag pe_no_ro_enabled_pr_pr_passing);
      Fld 11 1 (Flag pe_ltr_mechanism_supported); Fld 12 2 (Num pe_tph_completer_supported);
      Fld 18 2 (Num pe_obff_supported); Fld 20 1 (Flag pe_extended_fmt_field_supported);
      Fld 21 1 (Flag pe_end_end_tlp_prefix_supported); Fld 22 2 (Num pe_max_end_end_tlp_prefix);
      Fld 24 2 (Num pe_emergency_power_reduction_supported);
      Fld 26 1 (Flag pe_emergency_power_reduction_initialization_required); Fld 31 1 (Flag pe_frs_supported) ]
  else if r =? 10 then
    [ Fld 0 4 (Num pe_completion_timeout_value); Fld 4 1 (Flag pe_completion_timeout_disable);
      Fld 5 1 (Flag pe_ari_forwarding_enable); Fld 6 1 (Flag pe_atomic_op_requester_enable);
      Fld 7 1 (Flag pe_atomic_op_egress_blocking); Fld 8 1 (Flag pe_ido_request_enable);
      Fld 9 1 (Flag pe_ido_completion_enable); Fld 10 1 (Flag pe_ltr_mechanism_enable);
      Fld 11 1 (Flag pe_emergency_power_reduction_request); Fld 12 1 (Flag pe_ten_bit_tag_requester_enable);
      Fld 13 2 (Num pe_obff_enable); Fld 15 1 (Flag pe_end_end_tlp_prefix_blocking) ]
  else if r =? 11 then
    [ Fld 1 7 (Num pe_supported_link_speeds); Fld 8 1 (Flag pe_crosslink_supported);
      Fld 9 7 (Num pe_lower_skp_os_generation_supported_speeds);
      Fld 16 7 (Num pe_lower_skp_os_reception_supported_speeds);
      Fld 23 1 (Flag pe_retimer_presence_detect_supported); Fld 24 1 (Flag pe_two_retimers_presence_detect_supported);
      Fld 31 1 (Flag pe_drs_supported) ]
  else if r =? 12 then
    [ Fld 0 4 (Num pe_target_link_speed); Fld 4 1 (Flag pe_enter_compliance);
      Fld 5 1 (Flag pe_hardware_autonomous_speed_disable); Fld 6 1 (Flag pe_selectable_deemphasis);
      Fld 7 3 (Num pe_transmit_margin); Fld 10 1 (Flag pe_enter_modified_compliance);
      Fld 11 1 (Flag pe_compliance_sos); Fld 12 4 (Num pe_compliance_preset_deemphasis);
      Fld 16 1 (Flag pe_current_deemphasis_level); Fld 17 1 (Flag pe_equalization_8gt_complete);
      Fld 18 1 (Flag pe_equalization_8gt_phase_1_successful); Fld 19 1 (Flag pe_equalization_8gt_phase_2_successful);
      Fld 20 1 (Flag pe_equalization_8gt_phase_3_successful); Fld 21 1 (Flag pe_link_equalization_8gt_request);
      Fld 22 1 (Flag pe_retimer_presence_detected); Fld 23 1 (Flag pe_two_retimers_presence_detected);
      Fld 24 2 (Num pe_crosslink_resolution); Fld 28 3 (Num pe_downstream_component_presence);
      Fld 31 1 (Flag pe_drs_message_received) ]
  else [].
(** Device, Link, Slot and Root Control and Device and Link Control 2 are RW.  Bit 15 of Device Control
    (initiate function level reset) and bit 5 of Link Control (retrain link) read as 0, and so
    does bit 11 of Slot Control (electromechanical interlock control).  Selectable De-emphasis (bit 6 of
    Link Control 2) is HwInit. *)
Definition pcie_rw : Z -> Z :=
  tab [(2, 0x7fff); (4, 0xcfdb); (6, 0x37ff); (7, 0x1f); (10, 0xffff); (12, 0xffbf)].
Definition pcie_w1c : Z -> Z :=
  tab [(2, 0x004f0000); (4, 0xc0000000); (6, 0x011f0000); (8, 0x00010000); (12, 0x80200000)].

(** ** Secondary PCI Express extended capability (PCIe 7.7.3); register 0 is the header *)
Definition pcie_ext_layout (r : Z) : list fld :=
  if r =? 1 then
    [ Fld 0 1 (Flag px_perform_equalization); Fld 1 1 (Flag px_link_equalization_request_interrupt_enable);
      Fld 9 7 (Num px_enable_lower_skp_os_generation) ]
  else if r =? 2 then [ Fld 0 32 (Num px_lane_error_status) ]
  else if (3 <=? r) && (r <? 19) then
    let lane := 2 * (r - 3) in
    [ Fld 0 4 (Num (px_downstream_port_8gt_transmitter_preset lane));
      Fld 4 3 (Num (px_downstream_port_8gt_receiver_preset_hint lane));
      Fld 8 4 (Num (px_upstream_port_8gt_transmitter_preset lane));
      Fld 12 3 (Num (px_upstream_port_8gt_receiver_preset_hint lane));
      Fld 16 4 (Num (px_downstream_port_8gt_transmitter_preset (lane + 1)));
      Fld 20 3 (Num (px_downstream_port_8gt_receiver_preset_hint (lane + 1)));
      Fld 24 4 (Num (px_upstream_port_8gt_transmitter_preset (lane + 1)));
      Fld 28 3 (Num (px_upstream_port_8gt_receiver_preset_hint (lane + 1))) ]
  else [].
Definition pcie_ext_rw : Z -> Z := tab [(1, 0xfe03)].
Definition pcie_ext_w1c : Z -> Z := tab [(2, 0xffffffff)].

(** ** Advanced error reporting (PCIe 7.8.4); register 0 is the header *)
Definition aer_layout (r : Z) : list fld :=
  if r =? 1 then
    [ Fld 4 1 (Flag ae_data_link_protocol_error_status); Fld 5 1 (Flag ae_surprise_down_error_status);
      Fld 12 1 (Flag ae_poisoned_tlp_received_status); Fld 13 1 (Flag ae_flow_control_protocol_error_status);
      Fld 14 1 (Flag ae_completion_timeout_status); Fld 15 1 (Flag ae_completer_abort_status);
      Fld 16 1 (Flag ae_unexpected_completion_status); Fld 17 1 (Flag ae_receiver_overflow_status);
      Fld 18 1 (Flag ae_malformed_tlp_status); Fld 19 1 (Flag ae_ecrc_error_status);
      Fld 20 1 (Flag ae_unsupported_request_error_status); Fld 21 1 (Flag ae_acs_violation_status);
      Fld 22 1 (Flag ae_uncorrectable_internal_error_status); Fld 23 1 (Flag ae_mc_blocked_tlp_status);
      Fld 24 1 (Flag ae_atomicop_egress_blocked_status); Fld 25 1 (Flag ae_tlp_prefix_blocked_error_status);
      Fld 26 1 (Flag ae_poisoned_tlp_egress_blocked_status) ]
  else if r =? 2 then
    [ Fld 4 1 (Flag ae_data_link_protocol_error_mask); Fld 5 1 (Flag ae_surprise_down_error_mask);
      Fld 12 1 (Flag ae_poisoned_tlp_received_mask); Fld 13 1 (Flag ae_flow_control_protocol_error_mask);
      Fld 14 1 (Flag ae_completion_timeout_mask); Fld 15 1 (Flag ae_completer_abort_mask);
      Fld 16 1 (Flag ae_unexpected_completion_mask); Fld 17 1 (Flag ae_receiver_overflow_mask);
      Fld 18 1 (Flag ae_malformed_tlp_mask); Fld 19 1 (Flag ae_ecrc_error_mask);
      Fld 20 1 (Flag ae_unsupported_request_error_mask); Fld 21 1 (Flag ae_acs_violation_mask);
      Fld 22 1 (Flag ae_uncorrectable_internal_error_mask); Fld 23 1 (Flag ae_mc_blocked_tlp_mask);
      Fld 24 1 (Flag ae_atomicop_egress_blocked_mask); Fld 25 1 (Flag ae_tlp_prefix_blocked_error_mask);
      Fld 26 1 (Flag ae_poisoned_tlp_egress_blocked_mask) ]
  else if r =? 3 then
    [ Fld 4 1 (Flag ae_data_link_protocol_error_severity); Fld 5 1 (Flag ae_surprise_down_error_severity);
      Fld 12 1 (Flag ae_poisoned_tlp_received_severity); Fld 13 1 (Flag ae_flow_control_protocol_error_severity);
      Fld 14 1 (Flag ae_completion_timeout_severity); Fld 15 1 (Flag ae_completer_abort_severity);
      Fld 16 1 (Flag ae_unexpected_completion_severity); Fld 17 1 (Flag ae_receiver_overflow_severity);
      Fld 18 1 (Flag ae_malformed_tlp_severity); Fld 19 1 (Flag ae_ecrc_error_severity);
      Fld 20 1 (Flag ae_unsupported_request_error_severity); Fld 21 1 (Flag ae_acs_violation_severity);
      Fld 22 1 (Flag ae_uncorrectable_internal_error_severity); Fld 23 1 (Flag ae_mc_blocked_tlp_severity);
      Fld 24 1 (Flag ae_atomicop_egress_blocked_severity); Fld 25 1 (Flag ae_tlp_prefix_blocked_error_severity);
      Fld 26 1 (Flag ae_poisoned_tlp_egress_blocked_severity) ]
  else if r =? 4 then
    [ Fld 0 1 (Flag ae_receiver_error_status); Fld 6 1 (Flag ae_bad_tlp_status); Fld 7 1 (Flag ae_bad_dllp_status);
      Fld 8 1 (Flag ae_replay_num_rollover_status); Fld 12 1 (Flag ae_replay_timer_timeout_status);
      Fld 13 1 (Flag ae_advisory_nonfatal_error_status); Fld 14 1 (Flag ae_corrected_internal_error_status);
      Fld 15 1 (Flag ae_header_log_overflow_status) ]
  else if r =? 5 then
    [ Fld 0 1 (Flag ae_receiver_error_mask); Fld 6 1 (Flag ae_bad_tlp_mask); Fld 7 1 (Flag ae_bad_dllp_mask);
      Fld 8 1 (Flag ae_replay_num_rollover_mask); Fld 12 1 (Flag ae_replay_timer_timeout_mask);
      Fld 13 1 (Flag ae_advisory_nonfatal_error_mask); Fld 14 1 (Flag ae_corrected_internal_error_mask);
      Fld 15 1 (Flag ae_header_log_overflow_mask) ]
  else if r =? 6 then
    [ Fld 0 5 (Num ae_first_error_pointer);
      Fld 5 1 (Flag ae_ecrc_generation_capable); Fld 6 1 (Flag ae_ecrc_generation_enable);
      Fld 7 1 (Flag ae_ecrc_check_capable); Fld 8 1 (Flag ae_ecrc_check_enable);
      Fld 9 1 (Flag ae_multiple_header_recording_capable); Fld 10 1 (Flag ae_multiple_header_recording_enable);
      Fld 11 1 (Flag ae_tlp_prefix_log_present); Fld 12 1 (Flag ae_completion_timeout_prefix_header_log_capable) ]
  else if (7 <=? r) && (r <? 11) then [ Fld 0 32 (Num (ae_header_log (r - 7))) ]
  else if r =? 11 then
    [ Fld 0 1 (Flag ae_correctable_error_reporting_enable); Fld 1 1 (Flag ae_nonfatal_error_reporting_enable);
      Fld 2 1 (Flag ae_fatal_error_reporting_enable) ]
  else if r =? 12 then
    [ Fld 0 1 (Flag ae_err_cor_received); Fld 1 1 (Flag ae_multiple_err_cor_received);
      Fld 2 1 (Flag ae_err_fatal_nonfatal_received); Fld 3 1 (Flag ae_multiple_err_fatal_nonfatal_received);
      Fld 4 1 (Flag ae_first_uncorrectable_fatal); Fld 5 1 (Flag ae_nonfatal_error_messages_received);
      Fld 6 1 (Flag ae_fatal_error_messages_received); Fld 27 5 (Num ae_advanced_error_interrupt_message_number) ]
  else if r =? 13 then
    [ Fld 0 16 (Num ae_err_cor_source_identification); Fld 16 16 (Num ae_err_fatal_nonfatal_source_identification) ]
  else if (14 <=? r) && (r <? 18) then [ Fld 0 32 (Num (ae_tlp_prefix_log (r - 14))) ]
  else [].
Definition aer_rw : Z -> Z := tab [(2, 0x07fff030); (3, 0x07fff030); (5, 0xf1c1); (6, 0x0540); (11, 0x7)].
Definition aer_w1c : Z -> Z := tab [(1, 0x07fff030); (4, 0xf1c1); (12, 0x7f)].

(** ** Power management (PCI PM 3.2); register 0 starts with the header *)
Definition pm_layout (r : Z) : list fld :=
  if r =? 0 then
    [ Fld 16 3 (Const 3); Fld 19 1 (Flag pm_pme_clock); Fld 20 1 (Flag pm_immediate_readiness_on_return_to_d0);
      Fld 21 1 (Flag pm_device_specific_initialization); Fld 22 3 (Num pm_aux_current);
      Fld 25 1 (Flag pm_d1_support); Fld 26 1 (Flag pm_d2_support); Fld 27 5 (Num pm_pme_support) ]
  else if r =? 1 then
    [ Fld 0 2 (Num pm_power_state); Fld 3 1 (Flag pm_no_soft_reset); Fld 8 1 (Flag pm_pme_enable);
      Fld 9 4 (Num pm_data_select); Fld 13 2 (Num pm_data_scale); Fld 15 1 (Flag pm_pme_status);
      Fld 24 8 (Num pm_pm_data) ]
  else [].
(** PowerState, PME_En and Data_Select are RW, PME_Status is W1C; Data_Scale is read only. *)
Definition pm_rw : Z -> Z := tab [(1, 0x1f03)].
Definition pm_w1c : Z -> Z := tab [(1, 0x8000)].
