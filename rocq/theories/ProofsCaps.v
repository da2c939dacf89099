(** Register accesses of the capabilities (C26, C27). *)
From Verif Require Import Base BaseProofs Bits ModelUtils SpecUtils ProofsUtils ModelAttrs ModelCaps SpecRegs SpecCaps ProofsRegs.

Ltac look_pm := cbv [aset aclear when Pos.eqb Z.to_pos Z.add Z.sub Z.mul Z.opp Z.pos_sub Z.modulo Z.div_eucl Z.pos_div_eucl Pos.add Pos.succ pm_version pm_pme_clock pm_immediate_readiness_on_return_to_d0 pm_device_specific_initialization pm_aux_current pm_d1_support pm_d2_support pm_pme_support pm_power_state pm_no_soft_reset pm_pme_enable pm_data_select pm_data_scale pm_pme_status pm_pm_data].
Ltac look_pe := cbv [aset aclear when Pos.eqb Z.to_pos Z.add Z.sub Z.mul Z.opp Z.pos_sub Z.modulo Z.div_eucl Z.pos_div_eucl Pos.add Pos.succ pe_pcie_capability_version pe_pcie_device_type pe_pcie_slot_implemented pe_interrupt_message_number pe_max_payload_size_supported pe_phantom_functions_supported pe_extended_tag_supported pe_endpoint_l0s_acceptable_latency pe_endpoint_l1_acceptable_latency pe_role_based_error_reporting pe_captured_slot_power_limit_value pe_captured_slot_power_limit_scale pe_function_level_reset_capability pe_correctable_error_reporting_enable pe_non_fatal_error_reporting_enable pe_fatal_error_reporting_enable pe_unsupported_request_reporting_enable pe_enable_relaxed_ordering pe_max_payload_size pe_extended_tag_field_enable pe_phantom_functions_enable pe_aux_power_pm_enable pe_enable_no_snoop pe_max_read_request_size pe_correctable_error_detected pe_nonfatal_error_detected pe_fatal_error_detected pe_unsupported_request_detected pe_aux_power_detected pe_transactions_pending pe_emergency_power_reduction_detected pe_max_link_speed pe_max_link_width pe_aspm_support pe_l0s_exit_latency pe_l1_exit_latency pe_clock_power_management pe_surprise_down_error_reporting_capability pe_data_link_layer_link_active_reporting_capable pe_link_bandwidth_notification_capability pe_aspm_optionality_compliance pe_port_number pe_aspm_control pe_read_completion_boundary pe_link_disable pe_common_clock_configuration pe_extended_synch pe_enable_clock_power_management pe_hardware_autonomous_width_disable pe_link_bandwidth_management_interrupt_enable pe_link_autonomous_bandwidth_interrupt_enable pe_drs_signalling_control pe_current_link_speed pe_negotiated_link_width pe_link_training pe_slot_clock_configuration pe_data_link_layer_link_active pe_link_bandwidth_management_status pe_link_autonomous_bandwidth_status pe_attention_button_present pe_power_controller_present pe_mrl_sensor_present pe_attention_indicator_present pe_power_indicator_present pe_hot_plug_surprise pe_hot_plug_capable pe_slot_power_limit_value pe_slot_power_limit_scale pe_electromechanical_interlock_present pe_no_command_completed_support pe_physical_slot_number pe_attention_button_pressed_enable pe_power_fault_detected_enable pe_mrl_sensor_changed_enable pe_presence_detect_changed_enable pe_command_completed_interrupt_enable pe_hot_plug_interrupt_enable pe_attention_indicator_control pe_power_indicator_control pe_power_controller_control pe_electromechanical_interlock_control pe_data_link_layer_state_changed_enable pe_auto_slot_power_limit_disable pe_attention_button_pressed pe_power_fault_detected pe_mrl_sensor_changed pe_presence_detect_changed pe_command_completed pe_mrl_sensor_state pe_presence_detect_state pe_electromechanical_interlock_status pe_data_link_layer_state_changed pe_system_error_on_correctable_error_enable pe_system_error_on_non_fatal_error_enable pe_system_error_on_fatal_error_enable pe_pme_interrupt_enable pe_crs_software_visibility_enable pe_crs_software_visibility pe_pme_requester_id pe_pme_status pe_pme_pending pe_completion_timeout_ranges_supported pe_completion_timeout_disable_supported pe_ari_forwarding_supported pe_atomic_op_forwarding_supported pe_atomic_op_32_bit_completer_supported pe_atomic_op_64_bit_completer_supported pe_cas_128_bit_completer_supported pe_no_ro_enabled_pr_pr_passing pe_ltr_mechanism_supported pe_tph_completer_supported pe_obff_supported pe_extended_fmt_field_supported pe_end_end_tlp_prefix_supported pe_max_end_end_tlp_prefix pe_emergency_power_reduction_supported pe_emergency_power_reduction_initialization_required pe_frs_supported pe_completion_timeout_value pe_completion_timeout_disable pe_ari_forwarding_enable pe_atomic_op_requester_enable pe_atomic_op_egress_blocking pe_ido_request_enable pe_ido_completion_enable pe_ltr_mechanism_enable pe_emergency_power_reduction_request pe_ten_bit_tag_requester_enable pe_obff_enable pe_end_end_tlp_prefix_blocking pe_supported_link_speeds pe_crosslink_supported pe_lower_skp_os_generation_supported_speeds pe_lower_skp_os_reception_supported_speeds pe_retimer_presence_detect_supported pe_two_retimers_presence_detect_supported pe_drs_supported pe_target_link_speed pe_enter_compliance pe_hardware_autonomous_speed_disable pe_selectable_deemphasis pe_transmit_margin pe_enter_modified_compliance pe_compliance_sos pe_compliance_preset_deemphasis pe_current_deemphasis_level pe_equalization_8gt_complete pe_equalization_8gt_phase_1_successful pe_equalization_8gt_phase_2_successful pe_equalization_8gt_phase_3_successful pe_link_equalization_8gt_request pe_retimer_presence_detected pe_two_retimers_presence_detected pe_crosslink_resolution pe_downstream_component_presence pe_drs_message_received].
Ltac look_px := cbv [aset aclear when Pos.eqb Z.to_pos Z.add Z.sub Z.mul Z.opp Z.pos_sub Z.modulo Z.div_eucl Z.pos_div_eucl Pos.add Pos.succ px_perform_equalization px_link_equalization_request_interrupt_enable px_enable_lower_skp_os_generation px_lane_error_status px_downstream_port_8gt_transmitter_preset px_downstream_port_8gt_receiver_preset_hint px_upstream_port_8gt_transmitter_preset px_upstream_port_8gt_receiver_preset_hint].
Ltac look_ae := cbv [aset aclear when Pos.eqb Z.to_pos Z.add Z.sub Z.mul Z.opp Z.pos_sub Z.modulo Z.div_eucl Z.pos_div_eucl Pos.add Pos.succ ae_data_link_protocol_error_status ae_surprise_down_error_status ae_poisoned_tlp_received_status ae_flow_control_protocol_error_status ae_completion_timeout_status ae_completer_abort_status ae_unexpected_completion_status ae_receiver_overflow_status ae_malformed_tlp_status ae_ecrc_error_status ae_unsupported_request_error_status ae_acs_violation_status ae_uncorrectable_internal_error_status ae_mc_blocked_tlp_status ae_atomicop_egress_blocked_status ae_tlp_prefix_blocked_error_status ae_poisoned_tlp_egress_blocked_status ae_data_link_protocol_error_mask ae_surprise_down_error_mask ae_poisoned_tlp_received_mask ae_flow_control_protocol_error_mask ae_completion_timeout_mask ae_completer_abort_mask ae_unexpected_completion_mask ae_receiver_overflow_mask ae_malformed_tlp_mask ae_ecrc_error_mask ae_unsupported_request_error_mask ae_acs_violation_mask ae_uncorrectable_internal_error_mask ae_mc_blocked_tlp_mask ae_atomicop_egress_blocked_mask ae_tlp_prefix_blocked_error_mask ae_poisoned_tlp_egress_blocked_mask ae_data_link_protocol_error_severity ae_surprise_down_error_severity ae_poisoned_tlp_received_severity ae_flow_control_protocol_error_severity ae_completion_timeout_severity ae_completer_abort_severity ae_unexpected_completion_severity ae_receiver_overflow_severity ae_malformed_tlp_severity ae_ecrc_error_severity ae_unsupported_request_error_severity ae_acs_violation_severity ae_uncorrectable_internal_error_severity ae_mc_blocked_tlp_severity ae_atomicop_egress_blocked_severity ae_tlp_prefix_blocked_error_severity ae_poisoned_tlp_egress_blocked_severity ae_receiver_error_status ae_bad_tlp_status ae_bad_dllp_status ae_replay_num_rollover_status ae_replay_timer_timeout_status ae_advisory_nonfatal_error_status ae_corrected_internal_error_status ae_header_log_overflow_status ae_receiver_error_mask ae_bad_tlp_mask ae_bad_dllp_mask ae_replay_num_rollover_mask ae_replay_timer_timeout_mask ae_advisory_nonfatal_error_mask ae_corrected_internal_error_mask ae_header_log_overflow_mask ae_first_error_pointer ae_ecrc_generation_capable ae_ecrc_generation_enable ae_ecrc_check_capable ae_ecrc_check_enable ae_multiple_header_recording_capable ae_multiple_header_recording_enable ae_tlp_prefix_log_present ae_completion_timeout_prefix_header_log_capable ae_header_log ae_fatal_error_reporting_enable ae_nonfatal_error_reporting_enable ae_correctable_error_reporting_enable ae_err_cor_received ae_multiple_err_cor_received ae_err_fatal_nonfatal_received ae_multiple_err_fatal_nonfatal_received ae_first_uncorrectable_fatal ae_nonfatal_error_messages_received ae_fatal_error_messages_received ae_advanced_error_interrupt_message_number ae_err_cor_source_identification ae_err_fatal_nonfatal_source_identification ae_tlp_prefix_log].

Lemma Some_inj {A} (x y : A) : Some x = Some y -> x = y.
Proof. congruence. Qed.
Lemma if_same {A} (c : bool) (x : A) : (if c then x else x) = x.
Proof. destruct c; reflexivity. Qed.
(** One register: either not written, or the update. *)
Ltac upd_same := apply upd_intro;
  [ split; [vm_compute; discriminate|reflexivity] | split; [vm_compute; discriminate|reflexivity] | reflexivity | ];
  unfold upd_z, em4; bitsimp; rewrite ?bmu_em4 by lia; unfold em4; bits.

(** Attributes are numbered in the order of the registers: a register shows attributes of one span, and
    a write of a register changes attributes of its span. *)
Definition inside (p : Z * Z) (a : attr) : Prop := fst p <= Zpos a <= snd p.
Section Frame.
Variable read : attrs -> Z -> option Z.
Variable write : Z -> Z -> Z -> attrs -> attrs.
Variable span wspan : Z -> Z * Z.
Hypothesis read_ext : forall s s' r, (forall a, inside (span r) a -> s' a = s a) -> read s' r = read s r.
Hypothesis write_span : forall k data be s a, ~ inside (wspan k) a -> write k data be s a = s a.
Hypothesis disj : forall r k a, r <> k -> inside (span r) a -> inside (wspan k) a -> False.
Lemma frame r k data be s : r <> k -> read (write k data be s) r = read s r.
Proof. intros N. apply read_ext. intros a A. apply write_span. intros B. exact (disj r k a N A B). Qed.
End Frame.

Ltac ext_case s s' H := cbv beta iota zeta; repeat match goal with |- context [s' ?a] => rewrite (H a) by (first [vm_compute; split; discriminate | unfold inside; cbn [fst snd]; lia]) end; reflexivity.
Ltac ext_all rd span := let s := fresh "s" in let s' := fresh "s'" in let r := fresh "r" in let H := fresh "H" in
  intros s s' r H; unfold rd; unfold span in H;
  repeat match goal with |- (if ?r =? ?k then _ else _) = _ =>
    let E := fresh "E" in destruct (r =? k) eqn:E; [cbn [fst snd] in H; ext_case s s' H|] end.
Ltac rows s s' H := cbv zeta;
  repeat match goal with |- context [s' ?a] =>
    rewrite (H a) by (unfold inside; cbv [px_downstream_port_8gt_transmitter_preset px_downstream_port_8gt_receiver_preset_hint
      px_upstream_port_8gt_transmitter_preset px_upstream_port_8gt_receiver_preset_hint ae_header_log ae_tlp_prefix_log fst snd];
      rewrite Z2Pos.id by lia; lia) end; reflexivity.
Lemma aset_ne a k v s : a <> k -> aset k v s a = s a.
Proof. intros N. unfold aset. rewrite (proj2 (Pos.eqb_neq a k) N). reflexivity. Qed.
Lemma aclear_ne a k c s : a <> k -> aclear k c s a = s a.
Proof. intros N. unfold aclear. rewrite (proj2 (Pos.eqb_neq a k) N). reflexivity. Qed.
Lemma when_eq a c t e : t a = e a -> when c t e a = e a.
Proof. intros H. unfold when. rewrite H. destruct c; reflexivity. Qed.
Ltac ne := let X := fresh in intros X; match type of X with ?a = _ => match goal with H : ~ inside _ a |- _ => apply H; rewrite X; vm_compute; split; discriminate end end.
Ltac keep := lazymatch goal with
  | |- ?x = ?x => reflexivity
  | |- when _ _ _ _ = _ => etransitivity; [apply when_eq; keep | keep]
  | |- aset _ _ _ _ = _ => etransitivity; [apply aset_ne; ne | keep]
  | |- aclear _ _ _ _ = _ => etransitivity; [apply aclear_ne; ne | keep]
  end.
Ltac span_all look wr wspan := let k := fresh "k" in let a := fresh "a" in let H := fresh "H" in
  intros k ? ? ? a H; unfold wr; unfold wspan in H;
  repeat match goal with |- (if k =? ?c then _ else _) _ = _ =>
    let E := fresh "E" in destruct (k =? c) eqn:E; [cbv zeta; keep|] end; try reflexivity.
Ltac disj_all sp wsp := let r := fresh "r" in let k := fresh "k" in let N := fresh "N" in
  intros r k ? N; unfold inside, sp, wsp;
  repeat match goal with |- context [if k =? ?c then _ else _] => destruct (Z.eqb_spec k c); [subst k|] end;
  repeat match goal with |- context [if r =? ?c then _ else _] => destruct (Z.eqb_spec r c); [subst r|] end;
  cbn [fst snd]; try lia; repeat match goal with |- context [if ?b then _ else _] => destruct b end; cbn [fst snd]; lia.

Ltac same look wr rd :=
  let Hv := fresh in intros Hv; unfold rd in Hv |- *; cbn [Z.eqb Pos.eqb] in Hv |- *; apply Some_inj in Hv; subst;
  eexists; split; [reflexivity|]; cbn [Z.eqb Pos.eqb tab]; unfold wr; cbn [Z.eqb Pos.eqb]; look; upd_same.
(** Write of register [k]. *)
Ltac wr1 look wr rd fr r reg k :=
  let E := fresh "E" in destruct (Z.eqb_spec reg k) as [E|E];
  [subst reg; let F := fresh "F" in destruct (Z.eqb_spec r k) as [F|F];
    [subst r; same look wr rd
    |let Hv := fresh "Hv" in intros Hv; eexists; split; [rewrite fr by exact F; exact Hv|reflexivity]] |].
Ltac unwritten wr tabs := let H := fresh in intros H; eexists; split;
  [unfold wr; repeat match goal with E : ?a <> ?b |- _ => apply Z.eqb_neq in E; rewrite ?E end; exact H|];
  let R := fresh in
  match goal with |- context [?r =? ?reg] => destruct (Z.eqb_spec r reg) as [R|R]; [subst r|reflexivity] end;
  tabs; repeat match goal with E : ?a <> ?b |- _ => apply Z.eqb_neq in E end;
  repeat match goal with E : (?a =? ?b) = false |- _ => rewrite ?E; clear E end; intros ? _ _; rewrite upd_none; reflexivity.

Definition pm_span (r : Z) : Z * Z :=
  if r =? 0 then (2, 8) else if r =? 1 then (9, 15) else (2, 1).
Definition pm_wspan (r : Z) : Z * Z :=
  if r =? 1 then (9, 15) else (2, 1).
Lemma pmc_ext s s' r : (forall a, inside (pm_span r) a -> s' a = s a) -> pmc_read s' r = pmc_read s r.
Proof.
  revert s s' r. ext_all pmc_read pm_span.
  reflexivity.
Qed.
Lemma pmc_wr_span k data be s a : ~ inside (pm_wspan k) a -> pmc_write k data be s a = s a.
Proof. revert k data be s a. span_all look_pm pmc_write pm_wspan. Qed.
Lemma pmc_frame r k data be s : r <> k -> pmc_read (pmc_write k data be s) r = pmc_read s r.
Proof.
  apply (frame _ _ pm_span pm_wspan); [exact pmc_ext|exact pmc_wr_span|disj_all pm_span pm_wspan].
Qed.
Lemma pmc_write_ok : writes_follow pmc_read pmc_write pm_rw pm_w1c (tab [(1, 0x6000)]).
Proof.
  intros s reg data be r v Hbe. unfold pm_rw, pm_w1c.
  wr1 look_pm pmc_write pmc_read pmc_frame r reg 1.
  unwritten pmc_write ltac:(unfold tab).
Qed.

Definition pe_span (r : Z) : Z * Z :=
  if r =? 0 then (2, 4) else if r =? 1 then (5, 13) else if r =? 2 then (14, 31) else if r =? 3 then (32, 42) else if r =? 4 then (43, 59) else if r =? 5 then (60, 71) else if r =? 6 then (72, 92) else if r =? 7 then (93, 98) else if r =? 8 then (99, 101) else if r =? 9 then (102, 118) else if r =? 10 then (119, 130) else if r =? 11 then (131, 137) else if r =? 12 then (138, 156) else (2, 1).
Definition pe_wspan (r : Z) : Z * Z :=
  if r =? 2 then (14, 31) else if r =? 4 then (43, 59) else if r =? 6 then (72, 92) else if r =? 7 then (93, 98) else if r =? 8 then (99, 101) else if r =? 10 then (119, 130) else if r =? 12 then (138, 156) else (2, 1).
Lemma pec_ext s s' r : (forall a, inside (pe_span r) a -> s' a = s a) -> pec_read s' r = pec_read s r.
Proof.
  revert s s' r. ext_all pec_read pe_span.
  reflexivity.
Qed.
Lemma pec_wr_span k data be s a : ~ inside (pe_wspan k) a -> pec_write k data be s a = s a.
Proof. revert k data be s a. span_all look_pe pec_write pe_wspan. Qed.
Lemma pec_frame r k data be s : r <> k -> pec_read (pec_write k data be s) r = pec_read s r.
Proof.
  apply (frame _ _ pe_span pe_wspan); [exact pec_ext|exact pec_wr_span|disj_all pe_span pe_wspan].
Qed.
Lemma pec_write_ok : writes_follow pec_read pec_write pcie_rw pcie_w1c
  (tab [(6, 0x01000800); (12, 0x80200000)]).
Proof.
  intros s reg data be r v Hbe. unfold pcie_rw, pcie_w1c.
  wr1 look_pe pec_write pec_read pec_frame r reg 2.
  wr1 look_pe pec_write pec_read pec_frame r reg 4.
  wr1 look_pe pec_write pec_read pec_frame r reg 6.
  wr1 look_pe pec_write pec_read pec_frame r reg 7.
  wr1 look_pe pec_write pec_read pec_frame r reg 8.
  wr1 look_pe pec_write pec_read pec_frame r reg 10.
  wr1 look_pe pec_write pec_read pec_frame r reg 12.
  unwritten pec_write ltac:(unfold tab).
Qed.

Definition px_span (r : Z) : Z * Z :=
  if r =? 1 then (1, 3) else if r =? 2 then (4, 4) else if r <? 0x12 then (5, 132) else (2, 1).
Definition px_wspan (r : Z) : Z * Z :=
  if r =? 1 then (1, 3) else if r =? 2 then (4, 4) else (2, 1).
Lemma pxc_ext s s' r : (forall a, inside (px_span r) a -> s' a = s a) -> pxc_read s' r = pxc_read s r.
Proof.
  revert s s' r. ext_all pxc_read px_span.
  destruct (r <? 0x12); [|reflexivity]. rows s s' H.
Qed.
Lemma pxc_wr_span k data be s a : ~ inside (px_wspan k) a -> pxc_write k data be s a = s a.
Proof. revert k data be s a. span_all look_px pxc_write px_wspan. Qed.
Lemma pxc_frame r k data be s : r <> k -> pxc_read (pxc_write k data be s) r = pxc_read s r.
Proof.
  apply (frame _ _ px_span px_wspan); [exact pxc_ext|exact pxc_wr_span|disj_all px_span px_wspan].
Qed.
Lemma pxc_write_ok : writes_follow pxc_read pxc_write pcie_ext_rw pcie_ext_w1c (tab []).
Proof.
  intros s reg data be r v Hbe. unfold pcie_ext_rw, pcie_ext_w1c.
  wr1 look_px pxc_write pxc_read pxc_frame r reg 1.
  wr1 look_px pxc_write pxc_read pxc_frame r reg 2.
  unwritten pxc_write ltac:(unfold tab).
Qed.

Definition ae_span (r : Z) : Z * Z :=
  if r =? 1 then (1, 17) else if r =? 2 then (18, 34) else if r =? 3 then (35, 51) else if r =? 4 then (52, 59) else if r =? 5 then (60, 67) else if r =? 6 then (68, 76) else if (7 <=? r) && (r <=? 10) then (77, 80) else if r =? 11 then (81, 83) else if r =? 12 then (84, 91) else if r =? 13 then (92, 93) else if (14 <=? r) && (r <=? 0x11) then (94, 97) else (2, 1).
Definition ae_wspan (r : Z) : Z * Z :=
  if r =? 1 then (1, 17) else if r =? 2 then (18, 34) else if r =? 3 then (35, 51) else if r =? 4 then (52, 59) else if r =? 5 then (60, 67) else if r =? 6 then (68, 76) else if r =? 11 then (81, 83) else if r =? 12 then (84, 91) else (2, 1).
Lemma aec_ext s s' r : (forall a, inside (ae_span r) a -> s' a = s a) -> aec_read s' r = aec_read s r.
Proof.
  revert s s' r. ext_all aec_read ae_span.
  destruct ((7 <=? r) && (r <=? 10)); [rows s s' H|].
  repeat match goal with |- (if ?r =? ?k then _ else _) = _ =>
    let E := fresh "E" in destruct (r =? k) eqn:E; [cbn [fst snd] in H; ext_case s s' H|] end.
  destruct ((14 <=? r) && (r <=? 0x11)); [rows s s' H|reflexivity].
Qed.
Lemma aec_wr_span k data be s a : ~ inside (ae_wspan k) a -> aec_write k data be s a = s a.
Proof. revert k data be s a. span_all look_ae aec_write ae_wspan. Qed.
Lemma aec_frame r k data be s : r <> k -> aec_read (aec_write k data be s) r = aec_read s r.
Proof.
  apply (frame _ _ ae_span ae_wspan); [exact aec_ext|exact aec_wr_span|disj_all ae_span ae_wspan].
Qed.
Lemma aec_write_ok : writes_follow aec_read aec_write aer_rw aer_w1c (tab []).
Proof.
  intros s reg data be r v Hbe. unfold aer_rw, aer_w1c.
  wr1 look_ae aec_write aec_read aec_frame r reg 1.
  wr1 look_ae aec_write aec_read aec_frame r reg 2.
  wr1 look_ae aec_write aec_read aec_frame r reg 3.
  wr1 look_ae aec_write aec_read aec_frame r reg 4.
  wr1 look_ae aec_write aec_read aec_frame r reg 5.
  wr1 look_ae aec_write aec_read aec_frame r reg 6.
  wr1 look_ae aec_write aec_read aec_frame r reg 11.
  wr1 look_ae aec_write aec_read aec_frame r reg 12.
  unwritten aec_write ltac:(unfold tab).
Qed.

