(** Capability registers: core/caps/pm.py, pcie.py, aer.py, msi.py.

    An object is a function from attribute names (numbers) to integers; [False] and [True] are 0 and 1.
    Lists of integers are rows of attributes; negative indices count from the end.  A read returns [None] where Python returns [None]. *)
From Verif Require Import Base ModelUtils ModelAttrs.

(** core/caps/pm.py:30-53: the attributes of [PmCapability], all others are 0 (False). *)
Definition pm_version : attr := 1%positive.
Definition pm_pme_clock : attr := 2%positive.
Definition pm_immediate_readiness_on_return_to_d0 : attr := 3%positive.
Definition pm_device_specific_initialization : attr := 4%positive.
Definition pm_aux_current : attr := 5%positive.
Definition pm_d1_support : attr := 6%positive.
Definition pm_d2_support : attr := 7%positive.
Definition pm_pme_support : attr := 8%positive.
Definition pm_power_state : attr := 9%positive.
Definition pm_no_soft_reset : attr := 10%positive.
Definition pm_pme_enable : attr := 11%positive.
Definition pm_data_select : attr := 12%positive.
Definition pm_data_scale : attr := 13%positive.
Definition pm_pme_status : attr := 14%positive.
Definition pm_pm_data : attr := 15%positive.
Definition pmc_init : attrs :=
  aset pm_version 3 (fun _ => 0).
(** core/caps/pm.py:65-89 *)
Definition pmc_read (s : attrs) (reg : Z) : option Z :=
  if reg =? 0 then  (* 66 *)
    let val := Z.shiftl 3 16 in
    let val := Z.lor val (Z.shiftl (Z.b2z (zbool (s pm_pme_clock))) 19) in
    let val := Z.lor val (Z.shiftl (Z.b2z (zbool (s pm_immediate_readiness_on_return_to_d0))) 20) in
    let val := Z.lor val (Z.shiftl (Z.b2z (zbool (s pm_device_specific_initialization))) 21) in
    let val := Z.lor val (Z.shiftl (Z.land (s pm_aux_current) 7) 22) in
    let val := Z.lor val (Z.shiftl (Z.b2z (zbool (s pm_d1_support))) 25) in
    let val := Z.lor val (Z.shiftl (Z.b2z (zbool (s pm_d2_support))) 26) in
    let val := Z.lor val (Z.shiftl (Z.land (s pm_pme_support) 0x1f) 27) in
    Some val
  else
  if reg =? 1 then  (* 77 *)
    let val := Z.land (s pm_power_state) 3 in
    let val := Z.lor val (Z.shiftl (Z.b2z (zbool (s pm_no_soft_reset))) 3) in
    let val := Z.lor val (Z.shiftl (Z.b2z (zbool (s pm_pme_enable))) 8) in
    let val := Z.lor val (Z.shiftl (Z.land (s pm_data_select) 15) 9) in
    let val := Z.lor val (Z.shiftl (Z.land (s pm_data_scale) 3) 13) in
    let val := Z.lor val (Z.shiftl (Z.b2z (zbool (s pm_pme_status))) 15) in
    let val := Z.lor val (Z.shiftl (Z.land (s pm_pm_data) 0xff) 24) in
    Some val
  else
    Some 0.
(** core/caps/pm.py:91-101 *)
Definition pmc_write (reg data mask : Z) (s : attrs) : attrs :=
  if reg =? 1 then  (* 92 *)
    let s := when (bit mask 0) (
      let s := aset pm_power_state (Z.land data 3) s in
      s) s in
    let s := when (bit mask 1) (
      let s := aset pm_pme_enable (Z.b2z (bit data 8)) s in
      let s := aset pm_data_select (Z.land (Z.shiftr data 9) 15) s in
      let s := aset pm_data_scale (Z.land (Z.shiftr data 13) 3) s in
      let s := aclear pm_pme_status (bit data 15) s in
      s) s in
    s
  else
  s.

(** core/caps/pcie.py:32-212: the attributes of [PcieCapability], all others are 0 (False). *)
Definition pe_pcie_capability_version : attr := 1%positive.
Definition pe_pcie_device_type : attr := 2%positive.
Definition pe_pcie_slot_implemented : attr := 3%positive.
Definition pe_interrupt_message_number : attr := 4%positive.
Definition pe_max_payload_size_supported : attr := 5%positive.
Definition pe_phantom_functions_supported : attr := 6%positive.
Definition pe_extended_tag_supported : attr := 7%positive.
Definition pe_endpoint_l0s_acceptable_latency : attr := 8%positive.
Definition pe_endpoint_l1_acceptable_latency : attr := 9%positive.
Definition pe_role_based_error_reporting : attr := 10%positive.
Definition pe_captured_slot_power_limit_value : attr := 11%positive.
Definition pe_captured_slot_power_limit_scale : attr := 12%positive.
Definition pe_function_level_reset_capability : attr := 13%positive.
Definition pe_correctable_error_reporting_enable : attr := 14%positive.
Definition pe_non_fatal_error_reporting_enable : attr := 15%positive.
Definition pe_fatal_error_reporting_enable : attr := 16%positive.
Definition pe_unsupported_request_reporting_enable : attr := 17%positive.
Definition pe_enable_relaxed_ordering : attr := 18%positive.
Definition pe_max_payload_size : attr := 19%positive.
Definition pe_extended_tag_field_enable : attr := 20%positive.
Definition pe_phantom_functions_enable : attr := 21%positive.
Definition pe_aux_power_pm_enable : attr := 22%positive.
Definition pe_enable_no_snoop : attr := 23%positive.
Definition pe_max_read_request_size : attr := 24%positive.
Definition pe_correctable_error_detected : attr := 25%positive.
Definition pe_nonfatal_error_detected : attr := 26%positive.
Definition pe_fatal_error_detected : attr := 27%positive.
Definition pe_unsupported_request_detected : attr := 28%positive.
Definition pe_aux_power_detected : attr := 29%positive.
Definition pe_transactions_pending : attr := 30%positive.
Definition pe_emergency_power_reduction_detected : attr := 31%positive.
Definition pe_max_link_speed : attr := 32%positive.
Definition pe_max_link_width : attr := 33%positive.
Definition pe_aspm_support : attr := 34%positive.
Definition pe_l0s_exit_latency : attr := 35%positive.
Definition pe_l1_exit_latency : attr := 36%positive.
Definition pe_clock_power_management : attr := 37%positive.
Definition pe_surprise_down_error_reporting_capability : attr := 38%positive.
Definition pe_data_link_layer_link_active_reporting_capable : attr := 39%positive.
Definition pe_link_bandwidth_notification_capability : attr := 40%positive.
Definition pe_aspm_optionality_compliance : attr := 41%positive.
Definition pe_port_number : attr := 42%positive.
Definition pe_aspm_control : attr := 43%positive.
Definition pe_read_completion_boundary : attr := 44%positive.
Definition pe_link_disable : attr := 45%positive.
Definition pe_common_clock_configuration : attr := 46%positive.
Definition pe_extended_synch : attr := 47%positive.
Definition pe_enable_clock_power_management : attr := 48%positive.
Definition pe_hardware_autonomous_width_disable : attr := 49%positive.
Definition pe_link_bandwidth_management_interrupt_enable : attr := 50%positive.
Definition pe_link_autonomous_bandwidth_interrupt_enable : attr := 51%positive.
Definition pe_drs_signalling_control : attr := 52%positive.
Definition pe_current_link_speed : attr := 53%positive.
Definition pe_negotiated_link_width : attr := 54%positive.
Definition pe_link_training : attr := 55%positive.
Definition pe_slot_clock_configuration : attr := 56%positive.
Definition pe_data_link_layer_link_active : attr := 57%positive.
Definition pe_link_bandwidth_management_status : attr := 58%positive.
Definition pe_link_autonomous_bandwidth_status : attr := 59%positive.
Definition pe_attention_button_present : attr := 60%positive.
Definition pe_power_controller_present : attr := 61%positive.
Definition pe_mrl_sensor_present : attr := 62%positive.
Definition pe_attention_indicator_present : attr := 63%positive.
Definition pe_power_indicator_present : attr := 64%positive.
Definition pe_hot_plug_surprise : attr := 65%positive.
Definition pe_hot_plug_capable : attr := 66%positive.
Definition pe_slot_power_limit_value : attr := 67%positive.
Definition pe_slot_power_limit_scale : attr := 68%positive.
Definition pe_electromechanical_interlock_present : attr := 69%positive.
Definition pe_no_command_completed_support : attr := 70%positive.
Definition pe_physical_slot_number : attr := 71%positive.
Definition pe_attention_button_pressed_enable : attr := 72%positive.
Definition pe_power_fault_detected_enable : attr := 73%positive.
Definition pe_mrl_sensor_changed_enable : attr := 74%positive.
Definition pe_presence_detect_changed_enable : attr := 75%positive.
Definition pe_command_completed_interrupt_enable : attr := 76%positive.
Definition pe_hot_plug_interrupt_enable : attr := 77%positive.
Definition pe_attention_indicator_control : attr := 78%positive.
Definition pe_power_indicator_control : attr := 79%positive.
Definition pe_power_controller_control : attr := 80%positive.
Definition pe_electromechanical_interlock_control : attr := 81%positive.
Definition pe_data_link_layer_state_changed_enable : attr := 82%positive.
Definition pe_auto_slot_power_limit_disable : attr := 83%positive.
Definition pe_attention_button_pressed : attr := 84%positive.
Definition pe_power_fault_detected : attr := 85%positive.
Definition pe_mrl_sensor_changed : attr := 86%positive.
Definition pe_presence_detect_changed : attr := 87%positive.
Definition pe_command_completed : attr := 88%positive.
Definition pe_mrl_sensor_state : attr := 89%positive.
Definition pe_presence_detect_state : attr := 90%positive.
Definition pe_electromechanical_interlock_status : attr := 91%positive.
Definition pe_data_link_layer_state_changed : attr := 92%positive.
Definition pe_system_error_on_correctable_error_enable : attr := 93%positive.
Definition pe_system_error_on_non_fatal_error_enable : attr := 94%positive.
Definition pe_system_error_on_fatal_error_enable : attr := 95%positive.
Definition pe_pme_interrupt_enable : attr := 96%positive.
Definition pe_crs_software_visibility_enable : attr := 97%positive.
Definition pe_crs_software_visibility : attr := 98%positive.
Definition pe_pme_requester_id : attr := 99%positive.
Definition pe_pme_status : attr := 100%positive.
Definition pe_pme_pending : attr := 101%positive.
Definition pe_completion_timeout_ranges_supported : attr := 102%positive.
Definition pe_completion_timeout_disable_supported : attr := 103%positive.
Definition pe_ari_forwarding_supported : attr := 104%positive.
Definition pe_atomic_op_forwarding_supported : attr := 105%positive.
Definition pe_atomic_op_32_bit_completer_supported : attr := 106%positive.
Definition pe_atomic_op_64_bit_completer_supported : attr := 107%positive.
Definition pe_cas_128_bit_completer_supported : attr := 108%positive.
Definition pe_no_ro_enabled_pr_pr_passing : attr := 109%positive.
Definition pe_ltr_mechanism_supported : attr := 110%positive.
Definition pe_tph_completer_supported : attr := 111%positive.
Definition pe_obff_supported : attr := 112%positive.
Definition pe_extended_fmt_field_supported : attr := 113%positive.
Definition pe_end_end_tlp_prefix_supported : attr := 114%positive.
Definition pe_max_end_end_tlp_prefix : attr := 115%positive.
Definition pe_emergency_power_reduction_supported : attr := 116%positive.
Definition pe_emergency_power_reduction_initialization_required : attr := 117%positive.
Definition pe_frs_supported : attr := 118%positive.
Definition pe_completion_timeout_value : attr := 119%positive.
Definition pe_completion_timeout_disable : attr := 120%positive.
Definition pe_ari_forwarding_enable : attr := 121%positive.
Definition pe_atomic_op_requester_enable : attr := 122%positive.
Definition pe_atomic_op_egress_blocking : attr := 123%positive.
Definition pe_ido_request_enable : attr := 124%positive.
Definition pe_ido_completion_enable : attr := 125%positive.
Definition pe_ltr_mechanism_enable : attr := 126%positive.
Definition pe_emergency_power_reduction_request : attr := 127%positive.
Definition pe_ten_bit_tag_requester_enable : attr := 128%positive.
Definition pe_obff_enable : attr := 129%positive.
Definition pe_end_end_tlp_prefix_blocking : attr := 130%positive.
Definition pe_supported_link_speeds : attr := 131%positive.
Definition pe_crosslink_supported : attr := 132%positive.
Definition pe_lower_skp_os_generation_supported_speeds : attr := 133%positive.
Definition pe_lower_skp_os_reception_supported_speeds : attr := 134%positive.
Definition pe_retimer_presence_detect_supported : attr := 135%positive.
Definition pe_two_retimers_presence_detect_supported : attr := 136%positive.
Definition pe_drs_supported : attr := 137%positive.
Definition pe_target_link_speed : attr := 138%positive.
Definition pe_enter_compliance : attr := 139%positive.
Definition pe_hardware_autonomous_speed_disable : attr := 140%positive.
Definition pe_selectable_deemphasis : attr := 141%positive.
Definition pe_transmit_margin : attr := 142%positive.
Definition pe_enter_modified_compliance : attr := 143%positive.
Definition pe_compliance_sos : attr := 144%positive.
Definition pe_compliance_preset_deemphasis : attr := 145%positive.
Definition pe_current_deemphasis_level : attr := 146%positive.
Definition pe_equalization_8gt_complete : attr := 147%positive.
Definition pe_equalization_8gt_phase_1_successful : attr := 148%positive.
Definition pe_equalization_8gt_phase_2_successful : attr := 149%positive.
Definition pe_equalization_8gt_phase_3_successful : attr := 150%positive.
Definition pe_link_equalization_8gt_request : attr := 151%positive.
Definition pe_retimer_presence_detected : attr := 152%positive.
Definition pe_two_retimers_presence_detected : attr := 153%positive.
Definition pe_crosslink_resolution : attr := 154%positive.
Definition pe_downstream_component_presence : attr := 155%positive.
Definition pe_drs_message_received : attr := 156%positive.
Definition pec_init : attrs :=
  aset pe_pcie_capability_version 2 (aset pe_max_payload_size_supported 5 (aset pe_extended_tag_supported 1 (aset pe_endpoint_l0s_acceptable_latency 7 (aset pe_endpoint_l1_acceptable_latency 7 (aset pe_role_based_error_reporting 1 (aset pe_enable_relaxed_ordering 1 (aset pe_enable_no_snoop 1 (aset pe_max_read_request_size 2 (fun _ => 0))))))))).
(** core/caps/pcie.py:253-456 *)
Definition pec_read (s : attrs) (reg : Z) : option Z :=
  if reg =? 0 then  (* 254 *)
    let val := Z.shiftl 2 16 in
    let val := Z.lor val (Z.shiftl (Z.land (s pe_pcie_device_type) 15) 20) in
    let val := Z.lor val (Z.shiftl (Z.b2z (zbool (s pe_pcie_slot_implemented))) 24) in
    let val := Z.lor val (Z.shiftl (Z.land (s pe_interrupt_message_number) 0x1f) 25) in
    Some val
  else
  if reg =? 1 then  (* 261 *)
    let val := Z.land (s pe_max_payload_size_supported) 7 in
    let val := Z.lor val (Z.shiftl (Z.land (s pe_phantom_functions_supported) 3) 3) in
    let val := Z.lor val (Z.shiftl (Z.b2z (zbool (s pe_extended_tag_supported))) 5) in
    let val := Z.lor val (Z.shiftl (Z.land (s pe_endpoint_l0s_acceptable_latency) 7) 6) in
    let val := Z.lor val (Z.shiftl (Z.land (s pe_endpoint_l1_acceptable_latency) 7) 9) in
    let val := Z.lor val (Z.shiftl (Z.b2z (zbool (s pe_role_based_error_reporting))) 15) in
    let val := Z.lor val (Z.shiftl (Z.land (s pe_captured_slot_power_limit_value) 0xff) 18) in
    let val := Z.lor val (Z.shiftl (Z.land (s pe_captured_slot_power_limit_scale) 3) 26) in
    let val := Z.lor val (Z.shiftl (Z.b2z (zbool (s pe_function_level_reset_capability))) 28) in
    Some val
  else
  if reg =? 2 then  (* 273 *)
    let val := Z.shiftl (Z.b2z (zbool (s pe_correctable_error_reporting_enable))) 0 in
    let val := Z.lor val (Z.shiftl (Z.b2z (zbool (s pe_non_fatal_error_reporting_enable))) 1) in
    let val := Z.lor val (Z.shiftl (Z.b2z (zbool (s pe_fatal_error_reporting_enable))) 2) in
    let val := Z.lor val (Z.shiftl (Z.b2z (zbool (s pe_unsupported_request_reporting_enable))) 3) in
    let val := Z.lor val (Z.shiftl (Z.b2z (zbool (s pe_enable_relaxed_ordering))) 4) in
    let val := Z.lor val (Z.shiftl (Z.land (s pe_max_payload_size) 7) 5) in
    let val := Z.lor val (Z.shiftl (Z.b2z (zbool (s pe_extended_tag_field_enable))) 8) in
    let val := Z.lor val (Z.shiftl (Z.b2z (zbool (s pe_phantom_functions_enable))) 9) in
    let val := Z.lor val (Z.shiftl (Z.b2z (zbool (s pe_aux_power_pm_enable))) 10) in
    let val := Z.lor val (Z.shiftl (Z.b2z (zbool (s pe_enable_no_snoop))) 11) in
    let val := Z.lor val (Z.shiftl (Z.land (s pe_max_read_request_size) 7) 12) in
    let val := Z.lor val (Z.shiftl (Z.b2z (zbool (s pe_correctable_error_detected))) 16) in
    let val := Z.lor val (Z.shiftl (Z.b2z (zbool (s pe_nonfatal_error_detected))) 17) in
    let val := Z.lor val (Z.shiftl (Z.b2z (zbool (s pe_fatal_error_detected))) 18) in
    let val := Z.lor val (Z.shiftl (Z.b2z (zbool (s pe_unsupported_request_detected))) 19) in
    let val := Z.lor val (Z.shiftl (Z.b2z (zbool (s pe_aux_power_detected))) 20) in
    let val := Z.lor val (Z.shiftl (Z.b2z (zbool (s pe_transactions_pending))) 21) in
    let val := Z.lor val (Z.shiftl (Z.b2z (zbool (s pe_emergency_power_reduction_detected))) 22) in
    Some val
  else
  if reg =? 3 then  (* 295 *)
    let val := Z.land (s pe_max_link_speed) 15 in
    let val := Z.lor val (Z.shiftr (Z.land (s pe_max_link_width) 0x3f) 4) in
    let val := Z.lor val (Z.shiftr (Z.land (s pe_aspm_support) 3) 10) in
    let val := Z.lor val (Z.shiftr (Z.land (s pe_l0s_exit_latency) 7) 12) in
    let val := Z.lor val (Z.shiftr (Z.land (s pe_l1_exit_latency) 7) 15) in
    let val := Z.lor val (Z.shiftl (Z.b2z (zbool (s pe_clock_power_management))) 18) in
    let val := Z.lor val (Z.shiftl (Z.b2z (zbool (s pe_surprise_down_error_reporting_capability))) 19) in
    let val := Z.lor val (Z.shiftl (Z.b2z (zbool (s pe_data_link_layer_link_active_reporting_capable))) 20) in
    let val := Z.lor val (Z.shiftl (Z.b2z (zbool (s pe_link_bandwidth_notification_capability))) 21) in
    let val := Z.lor val (Z.shiftl (Z.b2z (zbool (s pe_aspm_optionality_compliance))) 22) in
    let val := Z.lor val (Z.shiftl (Z.land (s pe_port_number) 0xff) 24) in
    Some val
  else
  if reg =? 4 then  (* 309 *)
    let val := Z.land (s pe_aspm_control) 3 in
    let val := Z.lor val (Z.shiftl (Z.b2z (zbool (s pe_read_completion_boundary))) 3) in
    let val := Z.lor val (Z.shiftl (Z.b2z (zbool (s pe_link_disable))) 4) in
    let val := Z.lor val (Z.shiftl (Z.b2z (zbool (s pe_common_clock_configuration))) 6) in
    let val := Z.lor val (Z.shiftl (Z.b2z (zbool (s pe_extended_synch))) 7) in
    let val := Z.lor val (Z.shiftl (Z.b2z (zbool (s pe_enable_clock_power_management))) 8) in
    let val := Z.lor val (Z.shiftl (Z.b2z (zbool (s pe_hardware_autonomous_width_disable))) 9) in
    let val := Z.lor val (Z.shiftl (Z.b2z (zbool (s pe_link_bandwidth_management_interrupt_enable))) 10) in
    let val := Z.lor val (Z.shiftl (Z.b2z (zbool (s pe_link_autonomous_bandwidth_interrupt_enable))) 11) in
    let val := Z.lor val (Z.shiftl (Z.land (s pe_drs_signalling_control) 3) 14) in
    let val := Z.lor val (Z.shiftl (Z.land (s pe_current_link_speed) 15) 16) in
    let val := Z.lor val (Z.shiftl (Z.land (s pe_negotiated_link_width) 0x3f) 20) in
    let val := Z.lor val (Z.shiftl (Z.b2z (zbool (s pe_link_training))) 27) in
    let val := Z.lor val (Z.shiftl (Z.b2z (zbool (s pe_slot_clock_configuration))) 28) in
    let val := Z.lor val (Z.shiftl (Z.b2z (zbool (s pe_data_link_layer_link_active))) 29) in
    let val := Z.lor val (Z.shiftl (Z.b2z (zbool (s pe_link_bandwidth_management_status))) 30) in
    let val := Z.lor val (Z.shiftl (Z.b2z (zbool (s pe_link_autonomous_bandwidth_status))) 31) in
    Some val
  else
  if reg =? 5 then  (* 330 *)
    let val := Z.b2z (zbool (s pe_attention_button_present)) in
    let val := Z.lor val (Z.shiftl (Z.b2z (zbool (s pe_power_controller_present))) 1) in
    let val := Z.lor val (Z.shiftl (Z.b2z (zbool (s pe_mrl_sensor_present))) 2) in
    let val := Z.lor val (Z.shiftl (Z.b2z (zbool (s pe_attention_indicator_present))) 3) in
    let val := Z.lor val (Z.shiftl (Z.b2z (zbool (s pe_power_indicator_present))) 4) in
    let val := Z.lor val (Z.shiftl (Z.b2z (zbool (s pe_hot_plug_surprise))) 5) in
    let val := Z.lor val (Z.shiftl (Z.b2z (zbool (s pe_hot_plug_capable))) 6) in
    let val := Z.lor val (Z.shiftl (Z.land (s pe_slot_power_limit_value) 0xff) 7) in
    let val := Z.lor val (Z.shiftl (Z.land (s pe_slot_power_limit_scale) 3) 15) in
    let val := Z.lor val (Z.shiftl (Z.b2z (zbool (s pe_electromechanical_interlock_present))) 17) in
    let val := Z.lor val (Z.shiftl (Z.b2z (zbool (s pe_no_command_completed_support))) 18) in
    let val := Z.lor val (Z.shiftl (Z.land (s pe_physical_slot_number) 0x1fff) 19) in
    Some val
  else
  if reg =? 6 then  (* 345 *)
    let val := Z.shiftl (Z.b2z (zbool (s pe_attention_button_pressed_enable))) 0 in
    let val := Z.lor val (Z.shiftl (Z.b2z (zbool (s pe_power_fault_detected_enable))) 1) in
    let val := Z.lor val (Z.shiftl (Z.b2z (zbool (s pe_mrl_sensor_changed_enable))) 2) in
    let val := Z.lor val (Z.shiftl (Z.b2z (zbool (s pe_presence_detect_changed_enable))) 3) in
    let val := Z.lor val (Z.shiftl (Z.b2z (zbool (s pe_command_completed_interrupt_enable))) 4) in
    let val := Z.lor val (Z.shiftl (Z.b2z (zbool (s pe_hot_plug_interrupt_enable))) 5) in
    let val := Z.lor val (Z.shiftl (Z.land (s pe_attention_indicator_control) 3) 6) in
    let val := Z.lor val (Z.shiftl (Z.land (s pe_power_indicator_control) 3) 8) in
    let val := Z.lor val (Z.shiftl (Z.b2z (zbool (s pe_power_controller_control))) 10) in
    let val := Z.lor val (Z.shiftl (Z.b2z (zbool (s pe_electromechanical_interlock_control))) 11) in
    let val := Z.lor val (Z.shiftl (Z.b2z (zbool (s pe_data_link_layer_state_changed_enable))) 12) in
    let val := Z.lor val (Z.shiftl (Z.b2z (zbool (s pe_auto_slot_power_limit_disable))) 13) in
    let val := Z.lor val (Z.shiftl (Z.b2z (zbool (s pe_attention_button_pressed))) 16) in
    let val := Z.lor val (Z.shiftl (Z.b2z (zbool (s pe_power_fault_detected))) 17) in
    let val := Z.lor val (Z.shiftl (Z.b2z (zbool (s pe_mrl_sensor_changed))) 18) in
    let val := Z.lor val (Z.shiftl (Z.b2z (zbool (s pe_presence_detect_changed))) 19) in
    let val := Z.lor val (Z.shiftl (Z.b2z (zbool (s pe_command_completed))) 20) in
    let val := Z.lor val (Z.shiftl (Z.b2z (zbool (s pe_mrl_sensor_state))) 21) in
    let val := Z.lor val (Z.shiftl (Z.b2z (zbool (s pe_presence_detect_state))) 22) in
    let val := Z.lor val (Z.shiftl (Z.b2z (zbool (s pe_electromechanical_interlock_status))) 23) in
    let val := Z.lor val (Z.shiftl (Z.b2z (zbool (s pe_data_link_layer_state_changed))) 24) in
    Some val
  else
  if reg =? 7 then  (* 370 *)
    let val := Z.shiftl (Z.b2z (zbool (s pe_system_error_on_correctable_error_enable))) 0 in
    let val := Z.lor val (Z.shiftl (Z.b2z (zbool (s pe_system_error_on_non_fatal_error_enable))) 1) in
    let val := Z.lor val (Z.shiftl (Z.b2z (zbool (s pe_system_error_on_fatal_error_enable))) 2) in
    let val := Z.lor val (Z.shiftl (Z.b2z (zbool (s pe_pme_interrupt_enable))) 3) in
    let val := Z.lor val (Z.shiftl (Z.b2z (zbool (s pe_crs_software_visibility_enable))) 4) in
    let val := Z.lor val (Z.shiftl (Z.b2z (zbool (s pe_crs_software_visibility))) 16) in
    Some val
  else
  if reg =? 8 then  (* 380 *)
    let val := Z.land (s pe_pme_requester_id) 0xffff in
    let val := Z.lor val (Z.shiftl (Z.b2z (zbool (s pe_pme_status))) 16) in
    let val := Z.lor val (Z.shiftl (Z.b2z (zbool (s pe_pme_pending))) 17) in
    Some val
  else
  if reg =? 9 then  (* 386 *)
    let val := Z.land (s pe_completion_timeout_ranges_supported) 15 in
    let val := Z.lor val (Z.shiftl (Z.b2z (zbool (s pe_completion_timeout_disable_supported))) 4) in
    let val := Z.lor val (Z.shiftl (Z.b2z (zbool (s pe_ari_forwarding_supported))) 5) in
    let val := Z.lor val (Z.shiftl (Z.b2z (zbool (s pe_atomic_op_forwarding_supported))) 6) in
    let val := Z.lor val (Z.shiftl (Z.b2z (zbool (s pe_atomic_op_32_bit_completer_supported))) 7) in
    let val := Z.lor val (Z.shiftl (Z.b2z (zbool (s pe_atomic_op_64_bit_completer_supported))) 8) in
    let val := Z.lor val (Z.shiftl (Z.b2z (zbool (s pe_cas_128_bit_completer_supported))) 9) in
    let val := Z.lor val (Z.shiftl (Z.b2z (zbool (s pe_no_ro_enabled_pr_pr_passing))) 10) in
    let val := Z.lor val (Z.shiftl (Z.b2z (zbool (s pe_ltr_mechanism_supported))) 11) in
    let val := Z.lor val (Z.shiftl (Z.land (s pe_tph_completer_supported) 3) 12) in
    let val := Z.lor val (Z.shiftl (Z.land (s pe_obff_supported) 3) 18) in
    let val := Z.lor val (Z.shiftl (Z.b2z (zbool (s pe_extended_fmt_field_supported))) 20) in
    let val := Z.lor val (Z.shiftl (Z.b2z (zbool (s pe_end_end_tlp_prefix_supported))) 21) in
    let val := Z.lor val (Z.shiftl (Z.land (s pe_max_end_end_tlp_prefix) 3) 22) in
    let val := Z.lor val (Z.shiftl (Z.land (s pe_emergency_power_reduction_supported) 3) 24) in
    let val := Z.lor val (Z.shiftl (Z.b2z (zbool (s pe_emergency_power_reduction_initialization_required))) 26) in
    let val := Z.lor val (Z.shiftl (Z.b2z (zbool (s pe_frs_supported))) 31) in
    Some val
  else
  if reg =? 10 then  (* 406 *)
    let val := Z.land (s pe_completion_timeout_value) 15 in
    let val := Z.lor val (Z.shiftl (Z.b2z (zbool (s pe_completion_timeout_disable))) 4) in
    let val := Z.lor val (Z.shiftl (Z.b2z (zbool (s pe_ari_forwarding_enable))) 5) in
    let val := Z.lor val (Z.shiftl (Z.b2z (zbool (s pe_atomic_op_requester_enable))) 6) in
    let val := Z.lor val (Z.shiftl (Z.b2z (zbool (s pe_atomic_op_egress_blocking))) 7) in
    let val := Z.lor val (Z.shiftl (Z.b2z (zbool (s pe_ido_request_enable))) 8) in
    let val := Z.lor val (Z.shiftl (Z.b2z (zbool (s pe_ido_completion_enable))) 9) in
    let val := Z.lor val (Z.shiftl (Z.b2z (zbool (s pe_ltr_mechanism_enable))) 10) in
    let val := Z.lor val (Z.shiftl (Z.b2z (zbool (s pe_emergency_power_reduction_request))) 11) in
    let val := Z.lor val (Z.shiftl (Z.b2z (zbool (s pe_ten_bit_tag_requester_enable))) 12) in
    let val := Z.lor val (Z.shiftl (Z.land (s pe_obff_enable) 3) 13) in
    let val := Z.lor val (Z.shiftl (Z.b2z (zbool (s pe_end_end_tlp_prefix_blocking))) 15) in
    Some val
  else
  if reg =? 11 then  (* 422 *)
    let val := Z.shiftl (Z.land (s pe_supported_link_speeds) 0x7f) 1 in
    let val := Z.lor val (Z.shiftl (Z.b2z (zbool (s pe_crosslink_supported))) 8) in
    let val := Z.lor val (Z.shiftl (Z.land (s pe_lower_skp_os_generation_supported_speeds) 0x7f) 9) in
    let val := Z.lor val (Z.shiftl (Z.land (s pe_lower_skp_os_reception_supported_speeds) 0x7f) 16) in
    let val := Z.lor val (Z.shiftl (Z.b2z (zbool (s pe_retimer_presence_detect_supported))) 23) in
    let val := Z.lor val (Z.shiftl (Z.b2z (zbool (s pe_two_retimers_presence_detect_supported))) 24) in
    let val := Z.lor val (Z.shiftl (Z.b2z (zbool (s pe_drs_supported))) 31) in
    Some val
  else
  if reg =? 12 then  (* 432 *)
    let val := Z.land (s pe_target_link_speed) 15 in
    let val := Z.lor val (Z.shiftl (Z.b2z (zbool (s pe_enter_compliance))) 4) in
    let val := Z.lor val (Z.shiftl (Z.b2z (zbool (s pe_hardware_autonomous_speed_disable))) 5) in
    let val := Z.lor val (Z.shiftl (Z.b2z (zbool (s pe_selectable_deemphasis))) 6) in
    let val := Z.lor val (Z.shiftl (Z.land (s pe_transmit_margin) 7) 7) in
    let val := Z.lor val (Z.shiftl (Z.b2z (zbool (s pe_enter_modified_compliance))) 10) in
    let val := Z.lor val (Z.shiftl (Z.b2z (zbool (s pe_compliance_sos))) 11) in
    let val := Z.lor val (Z.shiftl (Z.land (s pe_compliance_preset_deemphasis) 15) 12) in
    let val := Z.lor val (Z.shiftl (Z.b2z (zbool (s pe_current_deemphasis_level))) 16) in
    let val := Z.lor val (Z.shiftl (Z.b2z (zbool (s pe_equalization_8gt_complete))) 17) in
    let val := Z.lor val (Z.shiftl (Z.b2z (zbool (s pe_equalization_8gt_phase_1_successful))) 18) in
    let val := Z.lor val (Z.shiftl (Z.b2z (zbool (s pe_equalization_8gt_phase_2_successful))) 19) in
    let val := Z.lor val (Z.shiftl (Z.b2z (zbool (s pe_equalization_8gt_phase_3_successful))) 20) in
    let val := Z.lor val (Z.shiftl (Z.b2z (zbool (s pe_link_equalization_8gt_request))) 21) in
    let val := Z.lor val (Z.shiftl (Z.b2z (zbool (s pe_retimer_presence_detected))) 22) in
    let val := Z.lor val (Z.shiftl (Z.b2z (zbool (s pe_two_retimers_presence_detected))) 23) in
    let val := Z.lor val (Z.shiftl (Z.land (s pe_crosslink_resolution) 3) 24) in
    let val := Z.lor val (Z.shiftl (Z.land (s pe_downstream_component_presence) 7) 27) in
    let val := Z.lor val (Z.shiftl (Z.b2z (zbool (s pe_drs_message_received))) 31) in
    Some val
  else
    Some 0.
(** core/caps/pcie.py:458-586 *)
Definition pec_write (reg data mask : Z) (s : attrs) : attrs :=
  if reg =? 2 then  (* 459 *)
    let s := when (bit mask 0) (
      let s := aset pe_correctable_error_reporting_enable (Z.b2z (bit data 0)) s in
      let s := aset pe_non_fatal_error_reporting_enable (Z.b2z (bit data 1)) s in
      let s := aset pe_fatal_error_reporting_enable (Z.b2z (bit data 2)) s in
      let s := aset pe_unsupported_request_reporting_enable (Z.b2z (bit data 3)) s in
      let s := aset pe_enable_relaxed_ordering (Z.b2z (bit data 4)) s in
      let s := aset pe_max_payload_size (Z.land (Z.shiftr data 5) 7) s in
      s) s in
    let s := when (bit mask 1) (
      let s := aset pe_extended_tag_field_enable (Z.b2z (bit data 8)) s in
      let s := aset pe_phantom_functions_enable (Z.b2z (bit data 9)) s in
      let s := aset pe_aux_power_pm_enable (Z.b2z (bit data 10)) s in
      let s := aset pe_enable_no_snoop (Z.b2z (bit data 11)) s in
      let s := aset pe_max_read_request_size (Z.land (Z.shiftr data 12) 7) s in
      (* 474: initiate_function_level_reset does nothing *)
      s) s in
    let s := when (bit mask 2) (
      let s := aclear pe_correctable_error_detected (bit data 16) s in
      let s := aclear pe_nonfatal_error_detected (bit data 17) s in
      let s := aclear pe_fatal_error_detected (bit data 18) s in
      let s := aclear pe_unsupported_request_detected (bit data 19) s in
      let s := aclear pe_emergency_power_reduction_detected (bit data 22) s in
      s) s in
    s
  else
  if reg =? 4 then  (* 488 *)
    let s := when (bit mask 0) (
      let s := aset pe_aspm_control (Z.land data 3) s in
      let s := aset pe_read_completion_boundary (Z.b2z (bit data 3)) s in
      let s := aset pe_link_disable (Z.b2z (bit data 4)) s in
      (* 494: initiate_retrain_link does nothing *)
      let s := aset pe_common_clock_configuration (Z.b2z (bit data 6)) s in
      let s := aset pe_extended_synch (Z.b2z (bit data 7)) s in
      s) s in
    let s := when (bit mask 1) (
      let s := aset pe_enable_clock_power_management (Z.b2z (bit data 8)) s in
      let s := aset pe_hardware_autonomous_width_disable (Z.b2z (bit data 9)) s in
      let s := aset pe_link_bandwidth_management_interrupt_enable (Z.b2z (bit data 10)) s in
      let s := aset pe_link_autonomous_bandwidth_interrupt_enable (Z.b2z (bit data 11)) s in
      let s := aset pe_drs_signalling_control (Z.land (Z.shiftr data 14) 3) s in
      s) s in
    let s := when (bit mask 3) (
      let s := aclear pe_link_bandwidth_management_status (bit data 30) s in
      let s := aclear pe_link_autonomous_bandwidth_status (bit data 31) s in
      s) s in
    s
  else
  if reg =? 6 then  (* 510 *)
    let s := when (bit mask 0) (
      let s := aset pe_attention_button_pressed_enable (Z.b2z (bit data 0)) s in
      let s := aset pe_power_fault_detected_enable (Z.b2z (bit data 1)) s in
      let s := aset pe_mrl_sensor_changed_enable (Z.b2z (bit data 2)) s in
      let s := aset pe_presence_detect_changed_enable (Z.b2z (bit data 3)) s in
      let s := aset pe_command_completed_interrupt_enable (Z.b2z (bit data 4)) s in
      let s := aset pe_hot_plug_interrupt_enable (Z.b2z (bit data 5)) s in
      let s := aset pe_attention_indicator_control (Z.land (Z.shiftr data 6) 3) s in
      s) s in
    let s := when (bit mask 1) (
      let s := aset pe_power_indicator_control (Z.land (Z.shiftr data 8) 3) s in
      let s := aset pe_power_controller_control (Z.b2z (bit data 10)) s in
      let s := aset pe_electromechanical_interlock_control (Z.b2z (bit data 11)) s in
      let s := aset pe_data_link_layer_state_changed_enable (Z.b2z (bit data 12)) s in
      let s := aset pe_auto_slot_power_limit_disable (Z.b2z (bit data 13)) s in
      s) s in
    let s := when (bit mask 2) (
      let s := aclear pe_attention_button_pressed (bit data 16) s in
      let s := aclear pe_power_fault_detected (bit data 17) s in
      let s := aclear pe_mrl_sensor_changed (bit data 18) s in
      let s := aclear pe_presence_detect_changed (bit data 19) s in
      let s := aclear pe_command_completed (bit data 20) s in
      let s := aclear pe_data_link_layer_state_changed (bit data 24) s in
      s) s in
    s
  else
  if reg =? 7 then  (* 540 *)
    let s := when (bit mask 0) (
      let s := aset pe_system_error_on_correctable_error_enable (Z.b2z (bit data 0)) s in
      let s := aset pe_system_error_on_non_fatal_error_enable (Z.b2z (bit data 1)) s in
      let s := aset pe_system_error_on_fatal_error_enable (Z.b2z (bit data 2)) s in
      let s := aset pe_pme_interrupt_enable (Z.b2z (bit data 3)) s in
      let s := aset pe_crs_software_visibility_enable (Z.b2z (bit data 4)) s in
      s) s in
    s
  else
  if reg =? 8 then  (* 548 *)
    let s := when (bit mask 2) (
      let s := aclear pe_pme_status (bit data 16) s in
      s) s in
    s
  else
  if reg =? 10 then  (* 553 *)
    let s := when (bit mask 0) (
      let s := aset pe_completion_timeout_value (Z.land data 15) s in
      let s := aset pe_completion_timeout_disable (Z.b2z (bit data 4)) s in
      let s := aset pe_ari_forwarding_enable (Z.b2z (bit data 5)) s in
      let s := aset pe_atomic_op_requester_enable (Z.b2z (bit data 6)) s in
      let s := aset pe_atomic_op_egress_blocking (Z.b2z (bit data 7)) s in
      s) s in
    let s := when (bit mask 1) (
      let s := aset pe_ido_request_enable (Z.b2z (bit data 8)) s in
      let s := aset pe_ido_completion_enable (Z.b2z (bit data 9)) s in
      let s := aset pe_ltr_mechanism_enable (Z.b2z (bit data 10)) s in
      let s := aset pe_emergency_power_reduction_request (Z.b2z (bit data 11)) s in
      let s := aset pe_ten_bit_tag_requester_enable (Z.b2z (bit data 12)) s in
      let s := aset pe_obff_enable (Z.land (Z.shiftr data 13) 3) s in
      let s := aset pe_end_end_tlp_prefix_blocking (Z.b2z (bit data 15)) s in
      s) s in
    s
  else
  if reg =? 12 then  (* 570 *)
    let s := when (bit mask 0) (
      let s := aset pe_target_link_speed (Z.land data 15) s in
      let s := aset pe_enter_compliance (Z.b2z (bit data 4)) s in
      let s := aset pe_hardware_autonomous_speed_disable (Z.b2z (bit data 5)) s in
      let s := aset pe_transmit_margin (Z.lor (Z.land (s pe_transmit_margin) 6) (Z.land (Z.shiftr data 7) 1)) s in
      s) s in
    let s := when (bit mask 1) (
      let s := aset pe_transmit_margin (Z.lor (Z.land (s pe_transmit_margin) 1) (Z.land (Z.shiftr data 7) 6)) s in
      let s := aset pe_enter_modified_compliance (Z.b2z (bit data 10)) s in
      let s := aset pe_compliance_sos (Z.b2z (bit data 11)) s in
      let s := aset pe_compliance_preset_deemphasis (Z.land (Z.shiftr data 12) 0xff) s in
      s) s in
    let s := when (bit mask 2) (
      let s := aset pe_link_equalization_8gt_request (Z.b2z (bit data 21)) s in
      let s := aclear pe_drs_message_received (bit data 31) s in
      s) s in
    s
  else
  s.

(** core/caps/pcie.py:597-613: the attributes of [PcieExtendedCapability], all others are 0 (False). *)
Definition px_perform_equalization : attr := 1%positive.
Definition px_link_equalization_request_interrupt_enable : attr := 2%positive.
Definition px_enable_lower_skp_os_generation : attr := 3%positive.
Definition px_lane_error_status : attr := 4%positive.
Definition px_downstream_port_8gt_transmitter_preset (i : Z) : attr := Z.to_pos (5 + i mod 32).
Definition px_downstream_port_8gt_receiver_preset_hint (i : Z) : attr := Z.to_pos (37 + i mod 32).
Definition px_upstream_port_8gt_transmitter_preset (i : Z) : attr := Z.to_pos (69 + i mod 32).
Definition px_upstream_port_8gt_receiver_preset_hint (i : Z) : attr := Z.to_pos (101 + i mod 32).
Definition pxc_init : attrs :=
  (fun _ => 0).
(** core/caps/pcie.py:629-651 *)
Definition pxc_read (s : attrs) (reg : Z) : option Z :=
  if reg =? 1 then  (* 630 *)
    let val := Z.b2z (zbool (s px_perform_equalization)) in
    let val := Z.lor val (Z.shiftl (Z.b2z (zbool (s px_link_equalization_request_interrupt_enable))) 1) in
    let val := Z.lor val (Z.shiftl (Z.land (s px_enable_lower_skp_os_generation) 0x7f) 9) in
    Some val
  else
  if reg =? 2 then  (* 636 *)
    Some (Z.land (s px_lane_error_status) 0xffffffff)
  else
  if reg <? 0x12 then  (* 639 *)
    let val := Z.land (s (px_downstream_port_8gt_transmitter_preset (((reg - 2) * 2)))) 15 in
    let val := Z.lor val (Z.shiftl (Z.land (s (px_downstream_port_8gt_receiver_preset_hint (((reg - 2) * 2)))) 7) 4) in
    let val := Z.lor val (Z.shiftl (Z.land (s (px_upstream_port_8gt_transmitter_preset (((reg - 2) * 2)))) 15) 8) in
    let val := Z.lor val (Z.shiftl (Z.land (s (px_upstream_port_8gt_receiver_preset_hint (((reg - 2) * 2)))) 7) 12) in
    let val := Z.lor val (Z.shiftl (Z.land (s (px_downstream_port_8gt_transmitter_preset ((((reg - 2) * 2) + 1)))) 15) 16) in
    let val := Z.lor val (Z.shiftl (Z.land (s (px_downstream_port_8gt_receiver_preset_hint ((((reg - 2) * 2) + 1)))) 7) 20) in
    let val := Z.lor val (Z.shiftl (Z.land (s (px_upstream_port_8gt_transmitter_preset ((((reg - 2) * 2) + 1)))) 15) 24) in
    let val := Z.lor val (Z.shiftl (Z.land (s (px_upstream_port_8gt_receiver_preset_hint ((((reg - 2) * 2) + 1)))) 7) 28) in
    Some val
  else
    Some 0.
(** core/caps/pcie.py:653-663 *)
Definition pxc_write (reg data mask : Z) (s : attrs) : attrs :=
  if reg =? 1 then  (* 654 *)
    let s := when (bit mask 0) (
      let s := aset px_perform_equalization (Z.b2z (bit data 0)) s in
      let s := aset px_link_equalization_request_interrupt_enable (Z.b2z (bit data 1)) s in
      s) s in
    let s := when (bit mask 1) (
      let s := aset px_enable_lower_skp_os_generation (Z.land (Z.shiftr data 9) 0x7f) s in
      s) s in
    s
  else
  if reg =? 2 then  (* 661 *)
    let s := aset px_lane_error_status (Z.land (byte_mask_update (s px_lane_error_status) mask (Z.land (s px_lane_error_status) (Z.lnot data)) (-1)) 0xffffffff) s in
    s
  else
  s.

(** core/caps/aer.py:30-138: the attributes of [AerExtendedCapability], all others are 0 (False). *)
Definition ae_data_link_protocol_error_status : attr := 1%positive.
Definition ae_surprise_down_error_status : attr := 2%positive.
Definition ae_poisoned_tlp_received_status : attr := 3%positive.
Definition ae_flow_control_protocol_error_status : attr := 4%positive.
Definition ae_completion_timeout_status : attr := 5%positive.
Definition ae_completer_abort_status : attr := 6%positive.
Definition ae_unexpected_completion_status : attr := 7%positive.
Definition ae_receiver_overflow_status : attr := 8%positive.
Definition ae_malformed_tlp_status : attr := 9%positive.
Definition ae_ecrc_error_status : attr := 10%positive.
Definition ae_unsupported_request_error_status : attr := 11%positive.
Definition ae_acs_violation_status : attr := 12%positive.
Definition ae_uncorrectable_internal_error_status : attr := 13%positive.
Definition ae_mc_blocked_tlp_status : attr := 14%positive.
Definition ae_atomicop_egress_blocked_status : attr := 15%positive.
Definition ae_tlp_prefix_blocked_error_status : attr := 16%positive.
Definition ae_poisoned_tlp_egress_blocked_status : attr := 17%positive.
Definition ae_data_link_protocol_error_mask : attr := 18%positive.
Definition ae_surprise_down_error_mask : attr := 19%positive.
Definition ae_poisoned_tlp_received_mask : attr := 20%positive.
Definition ae_flow_control_protocol_error_mask : attr := 21%positive.
Definition ae_completion_timeout_mask : attr := 22%positive.
Definition ae_completer_abort_mask : attr := 23%positive.
Definition ae_unexpected_completion_mask : attr := 24%positive.
Definition ae_receiver_overflow_mask : attr := 25%positive.
Definition ae_malformed_tlp_mask : attr := 26%positive.
Definition ae_ecrc_error_mask : attr := 27%positive.
Definition ae_unsupported_request_error_mask : attr := 28%positive.
Definition ae_acs_violation_mask : attr := 29%positive.
Definition ae_uncorrectable_internal_error_mask : attr := 30%positive.
Definition ae_mc_blocked_tlp_mask : attr := 31%positive.
Definition ae_atomicop_egress_blocked_mask : attr := 32%positive.
Definition ae_tlp_prefix_blocked_error_mask : attr := 33%positive.
Definition ae_poisoned_tlp_egress_blocked_mask : attr := 34%positive.
Definition ae_data_link_protocol_error_severity : attr := 35%positive.
Definition ae_surprise_down_error_severity : attr := 36%positive.
Definition ae_poisoned_tlp_received_severity : attr := 37%positive.
Definition ae_flow_control_protocol_error_severity : attr := 38%positive.
Definition ae_completion_timeout_severity : attr := 39%positive.
Definition ae_completer_abort_severity : attr := 40%positive.
Definition ae_unexpected_completion_severity : attr := 41%positive.
Definition ae_receiver_overflow_severity : attr := 42%positive.
Definition ae_malformed_tlp_severity : attr := 43%positive.
Definition ae_ecrc_error_severity : attr := 44%positive.
Definition ae_unsupported_request_error_severity : attr := 45%positive.
Definition ae_acs_violation_severity : attr := 46%positive.
Definition ae_uncorrectable_internal_error_severity : attr := 47%positive.
Definition ae_mc_blocked_tlp_severity : attr := 48%positive.
Definition ae_atomicop_egress_blocked_severity : attr := 49%positive.
Definition ae_tlp_prefix_blocked_error_severity : attr := 50%positive.
Definition ae_poisoned_tlp_egress_blocked_severity : attr := 51%positive.
Definition ae_receiver_error_status : attr := 52%positive.
Definition ae_bad_tlp_status : attr := 53%positive.
Definition ae_bad_dllp_status : attr := 54%positive.
Definition ae_replay_num_rollover_status : attr := 55%positive.
Definition ae_replay_timer_timeout_status : attr := 56%positive.
Definition ae_advisory_nonfatal_error_status : attr := 57%positive.
Definition ae_corrected_internal_error_status : attr := 58%positive.
Definition ae_header_log_overflow_status : attr := 59%positive.
Definition ae_receiver_error_mask : attr := 60%positive.
Definition ae_bad_tlp_mask : attr := 61%positive.
Definition ae_bad_dllp_mask : attr := 62%positive.
Definition ae_replay_num_rollover_mask : attr := 63%positive.
Definition ae_replay_timer_timeout_mask : attr := 64%positive.
Definition ae_advisory_nonfatal_error_mask : attr := 65%positive.
Definition ae_corrected_internal_error_mask : attr := 66%positive.
Definition ae_header_log_overflow_mask : attr := 67%positive.
Definition ae_first_error_pointer : attr := 68%positive.
Definition ae_ecrc_generation_capable : attr := 69%positive.
Definition ae_ecrc_generation_enable : attr := 70%positive.
Definition ae_ecrc_check_capable : attr := 71%positive.
Definition ae_ecrc_check_enable : attr := 72%positive.
Definition ae_multiple_header_recording_capable : attr := 73%positive.
Definition ae_multiple_header_recording_enable : attr := 74%positive.
Definition ae_tlp_prefix_log_present : attr := 75%positive.
Definition ae_completion_timeout_prefix_header_log_capable : attr := 76%positive.
Definition ae_header_log (i : Z) : attr := Z.to_pos (77 + i mod 4).
Definition ae_fatal_error_reporting_enable : attr := 81%positive.
Definition ae_nonfatal_error_reporting_enable : attr := 82%positive.
Definition ae_correctable_error_reporting_enable : attr := 83%positive.
Definition ae_err_cor_received : attr := 84%positive.
Definition ae_multiple_err_cor_received : attr := 85%positive.
Definition ae_err_fatal_nonfatal_received : attr := 86%positive.
Definition ae_multiple_err_fatal_nonfatal_received : attr := 87%positive.
Definition ae_first_uncorrectable_fatal : attr := 88%positive.
Definition ae_nonfatal_error_messages_received : attr := 89%positive.
Definition ae_fatal_error_messages_received : attr := 90%positive.
Definition ae_advanced_error_interrupt_message_number : attr := 91%positive.
Definition ae_err_cor_source_identification : attr := 92%positive.
Definition ae_err_fatal_nonfatal_source_identification : attr := 93%positive.
Definition ae_tlp_prefix_log (i : Z) : attr := Z.to_pos (94 + i mod 4).
Definition aec_init : attrs :=
  aset ae_uncorrectable_internal_error_mask 1 (aset ae_poisoned_tlp_egress_blocked_mask 1 (aset ae_data_link_protocol_error_severity 1 (aset ae_surprise_down_error_severity 1 (aset ae_flow_control_protocol_error_severity 1 (aset ae_receiver_overflow_severity 1 (aset ae_malformed_tlp_severity 1 (aset ae_uncorrectable_internal_error_severity 1 (aset ae_advisory_nonfatal_error_mask 1 (aset ae_corrected_internal_error_mask 1 (aset ae_header_log_overflow_mask 1 (fun _ => 0))))))))))).
(** core/caps/aer.py:176-300 *)
Definition aec_read (s : attrs) (reg : Z) : option Z :=
  if reg =? 1 then  (* 177 *)
    let val := Z.shiftl (Z.b2z (zbool (s ae_data_link_protocol_error_status))) 4 in
    let val := Z.lor val (Z.shiftl (Z.b2z (zbool (s ae_surprise_down_error_status))) 5) in
    let val := Z.lor val (Z.shiftl (Z.b2z (zbool (s ae_poisoned_tlp_received_status))) 12) in
    let val := Z.lor val (Z.shiftl (Z.b2z (zbool (s ae_flow_control_protocol_error_status))) 13) in
    let val := Z.lor val (Z.shiftl (Z.b2z (zbool (s ae_completion_timeout_status))) 14) in
    let val := Z.lor val (Z.shiftl (Z.b2z (zbool (s ae_completer_abort_status))) 15) in
    let val := Z.lor val (Z.shiftl (Z.b2z (zbool (s ae_unexpected_completion_status))) 16) in
    let val := Z.lor val (Z.shiftl (Z.b2z (zbool (s ae_receiver_overflow_status))) 17) in
    let val := Z.lor val (Z.shiftl (Z.b2z (zbool (s ae_malformed_tlp_status))) 18) in
    let val := Z.lor val (Z.shiftl (Z.b2z (zbool (s ae_ecrc_error_status))) 19) in
    let val := Z.lor val (Z.shiftl (Z.b2z (zbool (s ae_unsupported_request_error_status))) 20) in
    let val := Z.lor val (Z.shiftl (Z.b2z (zbool (s ae_acs_violation_status))) 21) in
    let val := Z.lor val (Z.shiftl (Z.b2z (zbool (s ae_uncorrectable_internal_error_status))) 22) in
    let val := Z.lor val (Z.shiftl (Z.b2z (zbool (s ae_mc_blocked_tlp_status))) 23) in
    let val := Z.lor val (Z.shiftl (Z.b2z (zbool (s ae_atomicop_egress_blocked_status))) 24) in
    let val := Z.lor val (Z.shiftl (Z.b2z (zbool (s ae_tlp_prefix_blocked_error_status))) 25) in
    let val := Z.lor val (Z.shiftl (Z.b2z (zbool (s ae_poisoned_tlp_egress_blocked_status))) 26) in
    Some val
  else
  if reg =? 2 then  (* 197 *)
    let val := Z.shiftl (Z.b2z (zbool (s ae_data_link_protocol_error_mask))) 4 in
    let val := Z.lor val (Z.shiftl (Z.b2z (zbool (s ae_surprise_down_error_mask))) 5) in
    let val := Z.lor val (Z.shiftl (Z.b2z (zbool (s ae_poisoned_tlp_received_mask))) 12) in
    let val := Z.lor val (Z.shiftl (Z.b2z (zbool (s ae_flow_control_protocol_error_mask))) 13) in
    let val := Z.lor val (Z.shiftl (Z.b2z (zbool (s ae_completion_timeout_mask))) 14) in
    let val := Z.lor val (Z.shiftl (Z.b2z (zbool (s ae_completer_abort_mask))) 15) in
    let val := Z.lor val (Z.shiftl (Z.b2z (zbool (s ae_unexpected_completion_mask))) 16) in
    let val := Z.lor val (Z.shiftl (Z.b2z (zbool (s ae_receiver_overflow_mask))) 17) in
    let val := Z.lor val (Z.shiftl (Z.b2z (zbool (s ae_malformed_tlp_mask))) 18) in
    let val := Z.lor val (Z.shiftl (Z.b2z (zbool (s ae_ecrc_error_mask))) 19) in
    let val := Z.lor val (Z.shiftl (Z.b2z (zbool (s ae_unsupported_request_error_mask))) 20) in
    let val := Z.lor val (Z.shiftl (Z.b2z (zbool (s ae_acs_violation_mask))) 21) in
    let val := Z.lor val (Z.shiftl (Z.b2z (zbool (s ae_uncorrectable_internal_error_mask))) 22) in
    let val := Z.lor val (Z.shiftl (Z.b2z (zbool (s ae_mc_blocked_tlp_mask))) 23) in
    let val := Z.lor val (Z.shiftl (Z.b2z (zbool (s ae_atomicop_egress_blocked_mask))) 24) in
    let val := Z.lor val (Z.shiftl (Z.b2z (zbool (s ae_tlp_prefix_blocked_error_mask))) 25) in
    let val := Z.lor val (Z.shiftl (Z.b2z (zbool (s ae_poisoned_tlp_egress_blocked_mask))) 26) in
    Some val
  else
  if reg =? 3 then  (* 217 *)
    let val := Z.shiftl (Z.b2z (zbool (s ae_data_link_protocol_error_severity))) 4 in
    let val := Z.lor val (Z.shiftl (Z.b2z (zbool (s ae_surprise_down_error_severity))) 5) in
    let val := Z.lor val (Z.shiftl (Z.b2z (zbool (s ae_poisoned_tlp_received_severity))) 12) in
    let val := Z.lor val (Z.shiftl (Z.b2z (zbool (s ae_flow_control_protocol_error_severity))) 13) in
    let val := Z.lor val (Z.shiftl (Z.b2z (zbool (s ae_completion_timeout_severity))) 14) in
    let val := Z.lor val (Z.shiftl (Z.b2z (zbool (s ae_completer_abort_severity))) 15) in
    let val := Z.lor val (Z.shiftl (Z.b2z (zbool (s ae_unexpected_completion_severity))) 16) in
    let val := Z.lor val (Z.shiftl (Z.b2z (zbool (s ae_receiver_overflow_severity))) 17) in
    let val := Z.lor val (Z.shiftl (Z.b2z (zbool (s ae_malformed_tlp_severity))) 18) in
    let val := Z.lor val (Z.shiftl (Z.b2z (zbool (s ae_ecrc_error_severity))) 19) in
    let val := Z.lor val (Z.shiftl (Z.b2z (zbool (s ae_unsupported_request_error_severity))) 20) in
    let val := Z.lor val (Z.shiftl (Z.b2z (zbool (s ae_acs_violation_severity))) 21) in
    let val := Z.lor val (Z.shiftl (Z.b2z (zbool (s ae_uncorrectable_internal_error_severity))) 22) in
    let val := Z.lor val (Z.shiftl (Z.b2z (zbool (s ae_mc_blocked_tlp_severity))) 23) in
    let val := Z.lor val (Z.shiftl (Z.b2z (zbool (s ae_atomicop_egress_blocked_severity))) 24) in
    let val := Z.lor val (Z.shiftl (Z.b2z (zbool (s ae_tlp_prefix_blocked_error_severity))) 25) in
    let val := Z.lor val (Z.shiftl (Z.b2z (zbool (s ae_poisoned_tlp_egress_blocked_severity))) 26) in
    Some val
  else
  if reg =? 4 then  (* 237 *)
    let val := Z.b2z (zbool (s ae_receiver_error_status)) in
    let val := Z.lor val (Z.shiftl (Z.b2z (zbool (s ae_bad_tlp_status))) 6) in
    let val := Z.lor val (Z.shiftl (Z.b2z (zbool (s ae_bad_dllp_status))) 7) in
    let val := Z.lor val (Z.shiftl (Z.b2z (zbool (s ae_replay_num_rollover_status))) 8) in
    let val := Z.lor val (Z.shiftl (Z.b2z (zbool (s ae_replay_timer_timeout_status))) 12) in
    let val := Z.lor val (Z.shiftl (Z.b2z (zbool (s ae_advisory_nonfatal_error_status))) 13) in
    let val := Z.lor val (Z.shiftl (Z.b2z (zbool (s ae_corrected_internal_error_status))) 14) in
    let val := Z.lor val (Z.shiftl (Z.b2z (zbool (s ae_header_log_overflow_status))) 15) in
    Some val
  else
  if reg =? 5 then  (* 248 *)
    let val := Z.shiftl (Z.b2z (zbool (s ae_receiver_error_mask))) 0 in
    let val := Z.lor val (Z.shiftl (Z.b2z (zbool (s ae_bad_tlp_mask))) 6) in
    let val := Z.lor val (Z.shiftl (Z.b2z (zbool (s ae_bad_dllp_mask))) 7) in
    let val := Z.lor val (Z.shiftl (Z.b2z (zbool (s ae_replay_num_rollover_mask))) 8) in
    let val := Z.lor val (Z.shiftl (Z.b2z (zbool (s ae_replay_timer_timeout_mask))) 12) in
    let val := Z.lor val (Z.shiftl (Z.b2z (zbool (s ae_advisory_nonfatal_error_mask))) 13) in
    let val := Z.lor val (Z.shiftl (Z.b2z (zbool (s ae_corrected_internal_error_mask))) 14) in
    let val := Z.lor val (Z.shiftl (Z.b2z (zbool (s ae_header_log_overflow_mask))) 15) in
    Some val
  else
  if reg =? 6 then  (* 259 *)
    let val := Z.land (s ae_first_error_pointer) 15 in
    let val := Z.lor val (Z.shiftl (Z.b2z (zbool (s ae_ecrc_generation_capable))) 5) in
    let val := Z.lor val (Z.shiftl (Z.b2z (zbool (s ae_ecrc_generation_enable))) 6) in
    let val := Z.lor val (Z.shiftl (Z.b2z (zbool (s ae_ecrc_check_capable))) 7) in
    let val := Z.lor val (Z.shiftl (Z.b2z (zbool (s ae_ecrc_check_enable))) 8) in
    let val := Z.lor val (Z.shiftl (Z.b2z (zbool (s ae_multiple_header_recording_capable))) 9) in
    let val := Z.lor val (Z.shiftl (Z.b2z (zbool (s ae_multiple_header_recording_enable))) 10) in
    let val := Z.lor val (Z.shiftl (Z.b2z (zbool (s ae_tlp_prefix_log_present))) 11) in
    let val := Z.lor val (Z.shiftl (Z.b2z (zbool (s ae_completion_timeout_prefix_header_log_capable))) 12) in
    Some val
  else
  if (7 <=? reg) && (reg <=? 10) then  (* 271 *)
    Some (Z.land (s (ae_header_log ((reg - 7)))) 0xffffffff)
  else
  if reg =? 11 then  (* 274 *)
    let val := Z.b2z (zbool (s ae_fatal_error_reporting_enable)) in
    let val := Z.lor val (Z.shiftl (Z.b2z (zbool (s ae_nonfatal_error_reporting_enable))) 1) in
    let val := Z.lor val (Z.shiftl (Z.b2z (zbool (s ae_correctable_error_reporting_enable))) 2) in
    Some val
  else
  if reg =? 12 then  (* 280 *)
    let val := Z.shiftl (Z.b2z (zbool (s ae_err_cor_received))) 0 in
    let val := Z.lor val (Z.shiftl (Z.b2z (zbool (s ae_multiple_err_cor_received))) 1) in
    let val := Z.lor val (Z.shiftl (Z.b2z (zbool (s ae_err_fatal_nonfatal_received))) 2) in
    let val := Z.lor val (Z.shiftl (Z.b2z (zbool (s ae_multiple_err_fatal_nonfatal_received))) 3) in
    let val := Z.lor val (Z.shiftl (Z.b2z (zbool (s ae_first_uncorrectable_fatal))) 4) in
    let val := Z.lor val (Z.shiftl (Z.b2z (zbool (s ae_nonfatal_error_messages_received))) 5) in
    let val := Z.lor val (Z.shiftl (Z.b2z (zbool (s ae_fatal_error_messages_received))) 6) in
    let val := Z.lor val (Z.shiftl (Z.land (s ae_advanced_error_interrupt_message_number) 0x1f) 27) in
    Some val
  else
  if reg =? 13 then  (* 291 *)
    let val := Z.land (s ae_err_cor_source_identification) 0xffff in
    let val := Z.lor val (Z.shiftl (Z.land (s ae_err_fatal_nonfatal_source_identification) 0xffff) 16) in
    Some val
  else
  if (14 <=? reg) && (reg <=? 0x11) then  (* 296 *)
    Some (Z.land (s (ae_tlp_prefix_log ((reg - 14)))) 0xffffffff)
  else
    Some 0.
(** core/caps/aer.py:302-451 *)
Definition aec_write (reg data mask : Z) (s : attrs) : attrs :=
  if reg =? 1 then  (* 303 *)
    let s := when (bit mask 0) (
      let s := aclear ae_data_link_protocol_error_status (bit data 4) s in
      let s := aclear ae_surprise_down_error_status (bit data 5) s in
      s) s in
    let s := when (bit mask 1) (
      let s := aclear ae_poisoned_tlp_received_status (bit data 12) s in
      let s := aclear ae_flow_control_protocol_error_status (bit data 13) s in
      let s := aclear ae_completion_timeout_status (bit data 14) s in
      let s := aclear ae_completer_abort_status (bit data 15) s in
      s) s in
    let s := when (bit mask 2) (
      let s := aclear ae_unexpected_completion_status (bit data 16) s in
      let s := aclear ae_receiver_overflow_status (bit data 17) s in
      let s := aclear ae_malformed_tlp_status (bit data 18) s in
      let s := aclear ae_ecrc_error_status (bit data 19) s in
      let s := aclear ae_unsupported_request_error_status (bit data 20) s in
      let s := aclear ae_acs_violation_status (bit data 21) s in
      let s := aclear ae_uncorrectable_internal_error_status (bit data 22) s in
      let s := aclear ae_mc_blocked_tlp_status (bit data 23) s in
      s) s in
    let s := when (bit mask 3) (
      let s := aclear ae_atomicop_egress_blocked_status (bit data 24) s in
      let s := aclear ae_tlp_prefix_blocked_error_status (bit data 25) s in
      let s := aclear ae_poisoned_tlp_egress_blocked_status (bit data 26) s in
      s) s in
    s
  else
  if reg =? 2 then  (* 343 *)
    let s := when (bit mask 0) (
      let s := aset ae_data_link_protocol_error_mask (Z.b2z (bit data 4)) s in
      let s := aset ae_surprise_down_error_mask (Z.b2z (bit data 5)) s in
      s) s in
    let s := when (bit mask 1) (
      let s := aset ae_poisoned_tlp_received_mask (Z.b2z (bit data 12)) s in
      let s := aset ae_flow_control_protocol_error_mask (Z.b2z (bit data 13)) s in
      let s := aset ae_completion_timeout_mask (Z.b2z (bit data 14)) s in
      let s := aset ae_completer_abort_mask (Z.b2z (bit data 15)) s in
      s) s in
    let s := when (bit mask 2) (
      let s := aset ae_unexpected_completion_mask (Z.b2z (bit data 16)) s in
      let s := aset ae_receiver_overflow_mask (Z.b2z (bit data 17)) s in
      let s := aset ae_malformed_tlp_mask (Z.b2z (bit data 18)) s in
      let s := aset ae_ecrc_error_mask (Z.b2z (bit data 19)) s in
      let s := aset ae_unsupported_request_error_mask (Z.b2z (bit data 20)) s in
      let s := aset ae_acs_violation_mask (Z.b2z (bit data 21)) s in
      let s := aset ae_uncorrectable_internal_error_mask (Z.b2z (bit data 22)) s in
      let s := aset ae_mc_blocked_tlp_mask (Z.b2z (bit data 23)) s in
      s) s in
    let s := when (bit mask 3) (
      let s := aset ae_atomicop_egress_blocked_mask (Z.b2z (bit data 24)) s in
      let s := aset ae_tlp_prefix_blocked_error_mask (Z.b2z (bit data 25)) s in
      let s := aset ae_poisoned_tlp_egress_blocked_mask (Z.b2z (bit data 26)) s in
      s) s in
    s
  else
  if reg =? 3 then  (* 366 *)
    let s := when (bit mask 0) (
      let s := aset ae_data_link_protocol_error_severity (Z.b2z (bit data 4)) s in
      let s := aset ae_surprise_down_error_severity (Z.b2z (bit data 5)) s in
      s) s in
    let s := when (bit mask 1) (
      let s := aset ae_poisoned_tlp_received_severity (Z.b2z (bit data 12)) s in
      let s := aset ae_flow_control_protocol_error_severity (Z.b2z (bit data 13)) s in
      let s := aset ae_completion_timeout_severity (Z.b2z (bit data 14)) s in
      let s := aset ae_completer_abort_severity (Z.b2z (bit data 15)) s in
      s) s in
    let s := when (bit mask 2) (
      let s := aset ae_unexpected_completion_severity (Z.b2z (bit data 16)) s in
      let s := aset ae_receiver_overflow_severity (Z.b2z (bit data 17)) s in
      let s := aset ae_malformed_tlp_severity (Z.b2z (bit data 18)) s in
      let s := aset ae_ecrc_error_severity (Z.b2z (bit data 19)) s in
      let s := aset ae_unsupported_request_error_severity (Z.b2z (bit data 20)) s in
      let s := aset ae_acs_violation_severity (Z.b2z (bit data 21)) s in
      let s := aset ae_uncorrectable_internal_error_severity (Z.b2z (bit data 22)) s in
      let s := aset ae_mc_blocked_tlp_severity (Z.b2z (bit data 23)) s in
      s) s in
    let s := when (bit mask 3) (
      let s := aset ae_atomicop_egress_blocked_severity (Z.b2z (bit data 24)) s in
      let s := aset ae_tlp_prefix_blocked_error_severity (Z.b2z (bit data 25)) s in
      let s := aset ae_poisoned_tlp_egress_blocked_severity (Z.b2z (bit data 26)) s in
      s) s in
    s
  else
  if reg =? 4 then  (* 389 *)
    let s := when (bit mask 0) (
      let s := aclear ae_receiver_error_status (bit data 0) s in
      let s := aclear ae_bad_tlp_status (bit data 6) s in
      let s := aclear ae_bad_dllp_status (bit data 7) s in
      s) s in
    let s := when (bit mask 1) (
      let s := aclear ae_replay_num_rollover_status (bit data 8) s in
      let s := aclear ae_replay_timer_timeout_status (bit data 12) s in
      let s := aclear ae_advisory_nonfatal_error_status (bit data 13) s in
      let s := aclear ae_corrected_internal_error_status (bit data 14) s in
      let s := aclear ae_header_log_overflow_status (bit data 15) s in
      s) s in
    s
  else
  if reg =? 5 then  (* 409 *)
    let s := when (bit mask 0) (
      let s := aset ae_receiver_error_mask (Z.b2z (bit data 0)) s in
      let s := aset ae_bad_tlp_mask (Z.b2z (bit data 6)) s in
      let s := aset ae_bad_dllp_mask (Z.b2z (bit data 7)) s in
      s) s in
    let s := when (bit mask 1) (
      let s := aset ae_replay_num_rollover_mask (Z.b2z (bit data 8)) s in
      let s := aset ae_replay_timer_timeout_mask (Z.b2z (bit data 12)) s in
      let s := aset ae_advisory_nonfatal_error_mask (Z.b2z (bit data 13)) s in
      let s := aset ae_corrected_internal_error_mask (Z.b2z (bit data 14)) s in
      let s := aset ae_header_log_overflow_mask (Z.b2z (bit data 15)) s in
      s) s in
    s
  else
  if reg =? 6 then  (* 421 *)
    let s := when (bit mask 0) (
      let s := aset ae_ecrc_generation_enable (Z.b2z (bit data 6)) s in
      s) s in
    let s := when (bit mask 1) (
      let s := aset ae_ecrc_check_enable (Z.b2z (bit data 8)) s in
      let s := aset ae_multiple_header_recording_enable (Z.b2z (bit data 10)) s in
      s) s in
    s
  else
  if reg =? 11 then  (* 428 *)
    let s := when (bit mask 0) (
      let s := aset ae_fatal_error_reporting_enable (Z.b2z (bit data 0)) s in
      let s := aset ae_nonfatal_error_reporting_enable (Z.b2z (bit data 1)) s in
      let s := aset ae_correctable_error_reporting_enable (Z.b2z (bit data 2)) s in
      s) s in
    s
  else
  if reg =? 12 then  (* 435 *)
    let s := when (bit mask 0) (
      let s := aclear ae_err_cor_received (bit data 0) s in
      let s := aclear ae_multiple_err_cor_received (bit data 1) s in
      let s := aclear ae_err_fatal_nonfatal_received (bit data 2) s in
      let s := aclear ae_multiple_err_fatal_nonfatal_received (bit data 3) s in
      let s := aclear ae_first_uncorrectable_fatal (bit data 4) s in
      let s := aclear ae_nonfatal_error_messages_received (bit data 5) s in
      let s := aclear ae_fatal_error_messages_received (bit data 6) s in
      s) s in
    s
  else
  s.

(** core/caps/msi.py:34-50: the attributes of [MsiCapability], all others are 0 (False). *)
Definition ms_msi_enable : attr := 1%positive.
Definition ms_msi_multiple_message_capable : attr := 2%positive.
Definition ms_msi_multiple_message_enable : attr := 3%positive.
Definition ms_msi_64bit_address_capable : attr := 4%positive.
Definition ms_msi_per_vector_mask_capable : attr := 5%positive.
Definition ms_msi_extended_message_data_capable : attr := 6%positive.
Definition ms_msi_extended_message_data_enable : attr := 7%positive.
Definition ms_msi_message_address : attr := 8%positive.
Definition ms_msi_message_data : attr := 9%positive.
Definition ms_msi_mask_bits : attr := 10%positive.
Definition ms_msi_pending_bits : attr := 11%positive.
Definition msc_init : attrs :=
  (fun _ => 0).
(** core/caps/msi.py:109-137 *)
Definition msc_read (s : attrs) (reg : Z) : option Z :=
  if reg =? 0 then  (* 110 *)
    let val := Z.shiftl (Z.b2z (zbool (s ms_msi_enable))) 16 in
    let val := Z.lor val (Z.shiftl (Z.land (s ms_msi_multiple_message_capable) 7) 17) in
    let val := Z.lor val (Z.shiftl (Z.land (s ms_msi_multiple_message_enable) 7) 20) in
    let val := Z.lor val (Z.shiftl (Z.b2z (zbool (s ms_msi_64bit_address_capable))) 23) in
    let val := Z.lor val (Z.shiftl (Z.b2z (zbool (s ms_msi_per_vector_mask_capable))) 24) in
    let val := Z.lor val (Z.shiftl (Z.b2z (zbool (s ms_msi_extended_message_data_capable))) 25) in
    let val := Z.lor val (Z.shiftl (Z.b2z (zbool (s ms_msi_extended_message_data_enable))) 26) in
    Some val
  else
  if reg =? 1 then  (* 120 *)
    Some (Z.land (s ms_msi_message_address) 0xfffffffc)
  else
  if (reg =? 2) && zbool (s ms_msi_64bit_address_capable) then  (* 123 *)
    Some (Z.land (Z.shiftr (s ms_msi_message_address) 32) 0xffffffff)
  else
  if reg =? (if zbool (s ms_msi_64bit_address_capable) then 3 else 2) then  (* 126 *)
    if zbool (s ms_msi_extended_message_data_capable) then  (* 128 *)
      Some (Z.land (s ms_msi_message_data) 0xffffffff)
    else
      Some (Z.land (s ms_msi_message_data) 0xffff)
  else
  if (reg =? (if zbool (s ms_msi_64bit_address_capable) then 4 else 3)) && zbool (s ms_msi_per_vector_mask_capable) then  (* 132 *)
    Some (Z.land (s ms_msi_mask_bits) 0xffffffff)
  else
  if (reg =? (if zbool (s ms_msi_64bit_address_capable) then 5 else 4)) && zbool (s ms_msi_per_vector_mask_capable) then  (* 135 *)
    Some (Z.land (s ms_msi_pending_bits) 0xffffffff)
  else None.
(** core/caps/msi.py:139-161 *)
Definition msc_write (reg data mask : Z) (s : attrs) : attrs :=
  if reg =? 0 then  (* 140 *)
    let s := when (bit mask 2) (
      let s := aset ms_msi_enable (Z.b2z (bit data 16)) s in
      let s := aset ms_msi_multiple_message_enable (Z.land (Z.shiftr data 20) 7) s in
      let s := when (zbool (s ms_msi_extended_message_data_capable)) (
        let s := aset ms_msi_extended_message_data_enable (Z.b2z (bit data 16)) s in
        s) s in
      s) s in
    s
  else
  if reg =? 1 then  (* 147 *)
    let s := aset ms_msi_message_address (byte_mask_update (s ms_msi_message_address) mask (Z.land data 0xfffffffc) (-1)) s in
    s
  else
  if (reg =? 2) && zbool (s ms_msi_64bit_address_capable) then  (* 150 *)
    let s := aset ms_msi_message_address (byte_mask_update (s ms_msi_message_address) (Z.shiftl mask 4) (Z.shiftl data 32) (-1)) s in
    s
  else
  if reg =? (if zbool (s ms_msi_64bit_address_capable) then 3 else 2) then  (* 153 *)
    let s := when (zbool (s ms_msi_extended_message_data_capable)) (
      let s := aset ms_msi_message_data (Z.land (byte_mask_update (s ms_msi_message_data) mask data (-1)) 0xffffffff) s in
      s) (
      let s := aset ms_msi_message_data (Z.land (byte_mask_update (s ms_msi_message_data) (Z.land mask 3) data (-1)) 0xffff) s in
      s) in
    s
  else
  if (reg =? (if zbool (s ms_msi_64bit_address_capable) then 4 else 3)) && zbool (s ms_msi_per_vector_mask_capable) then  (* 159 *)
    let s := aset ms_msi_mask_bits (Z.land (byte_mask_update (s ms_msi_mask_bits) mask data (-1)) 0xffffffff) s in
    s
  else
  s.

(** core/caps/msi.py:180-192: the attributes of [MsixCapability], all others are 0 (False). *)
Definition mx_msix_table_size : attr := 1%positive.
Definition mx_msix_function_mask : attr := 2%positive.
Definition mx_msix_enable : attr := 3%positive.
Definition mx_msix_table_bar_indicator_register : attr := 4%positive.
Definition mx_msix_table_offset : attr := 5%positive.
Definition mx_msix_pba_bar_indicator_register : attr := 6%positive.
Definition mx_msix_pba_offset : attr := 7%positive.
Definition mxc_init : attrs :=
  (fun _ => 0).
(** core/caps/msi.py:206-222 *)
Definition mxc_read (s : attrs) (reg : Z) : option Z :=
  if reg =? 0 then  (* 207 *)
    let val := Z.shiftl (Z.land (s mx_msix_table_size) 0x7ff) 16 in
    let val := Z.lor val (Z.shiftl (Z.b2z (zbool (s mx_msix_function_mask))) 30) in
    let val := Z.lor val (Z.shiftl (Z.b2z (zbool (s mx_msix_enable))) 31) in
    Some val
  else
  if reg =? 1 then  (* 213 *)
    let val := Z.land (s mx_msix_table_bar_indicator_register) 7 in
    let val := Z.lor val (Z.land (s mx_msix_table_offset) 0xfffffff8) in
    Some val
  else
  if reg =? 2 then  (* 218 *)
    let val := Z.land (s mx_msix_pba_bar_indicator_register) 7 in
    let val := Z.lor val (Z.land (s mx_msix_pba_offset) 0xfffffff8) in
    Some val
  else None.
(** core/caps/msi.py:224-229 *)
Definition mxc_write (reg data mask : Z) (s : attrs) : attrs :=
  if reg =? 0 then  (* 225 *)
    let s := when (bit mask 3) (
      let s := aset mx_msix_function_mask (Z.b2z (bit data 30)) s in
      let s := aset mx_msix_enable (Z.b2z (bit data 31)) s in
      s) s in
    s
  else
  s.
