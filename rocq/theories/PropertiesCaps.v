(** Registers of the PCI Express (C26), advanced error reporting and power management (C27)
    capabilities. *)
From Verif Require Import Base ModelAttrs ModelCaps SpecRegs SpecCaps ProofsRegs ProofsCaps ProofsCapsLayout.

(** A write to register [reg] of state [s] breaks the register semantics in bit [i]. *)
Definition wrong_bit (read : attrs -> Z -> option Z) (write : Z -> Z -> Z -> attrs -> attrs)
  (rw w1c : Z -> Z) (s : attrs) (reg data be i : Z) : bool :=
  match read s reg, read (write reg data be s) reg with
  | Some v, Some v' => negb (Bool.eqb (Z.testbit v' i) (upd_bit (rw reg) (w1c reg) be data v i))
  | _, _ => false
  end.
(** A field of register [r] does not show its value. *)
Definition wrong_field (read : attrs -> Z -> option Z) (layout : Z -> list fld) (s : attrs) (r : Z) (f : fld) : bool :=
  match read s r with
  | Some v => (if in_dec (fun a b : fld => ltac:(repeat decide equality)) f (layout r) then true else false) &&
              negb (slice v (lsb f) (width f) =? fval s f)
  | None => false
  end.

(** ** C26 *)
(** All control bits are RW, all status bits are W1C and nothing else changes, but for four bits. *)
Theorem C26_writes_partial : writes_follow pec_read pec_write pcie_rw pcie_w1c
  (tab [(6, 0x01000800); (12, 0x80200000)]).
Proof. exact pec_write_ok. Qed.
(** All fields are where the specification puts them, but for the low part of Link Capabilities, the
    interlock control and Downstream Component Presence. *)
Theorem C26_layout_partial : forall s r, exists v, pec_read s r = Some v /\
  shows (pcie_layout r) (tab [(3, 0x3ffff); (6, 0x800); (12, 0x78000000)] r) s v.
Proof. exact pec_shows. Qed.
Theorem C26_ext_writes : writes_follow pxc_read pxc_write pcie_ext_rw pcie_ext_w1c (tab []).
Proof. exact pxc_write_ok. Qed.
(** The lane equalization registers (3 to 18) are missing here. *)
Theorem C26_ext_layout_partial : forall s r, r = 1 \/ r = 2 \/ 19 <= r ->
  exists v, pxc_read s r = Some v /\ shows (pcie_ext_layout r) 0 s v.
Proof. exact pxc_shows. Qed.

(** MPS and read request size written, byte 1 not enabled, error bits cleared. *)
Example C26_writes_ex :
  let s := aset pe_fatal_error_detected 1 (aset pe_max_read_request_size 2 pec_init) in
  pec_read s 2 = Some 0x00042810 /\ pec_read (pec_write 2 0x0004503f 5 s) 2 = Some 0x0000283f.
Proof. vm_compute. auto. Qed.
Example C26_layout_ex :
  let s := aset pe_pcie_device_type 4 (aset pe_interrupt_message_number 3 (aset pe_pcie_slot_implemented 1 pec_init)) in
  pec_read s 0 = Some 0x07420000.
Proof. reflexivity. Qed.
Example C26_ext_ex : pxc_read (pxc_write 2 0xff0f 1 (aset px_lane_error_status 0x333 pxc_init)) 2 = Some 0x330.
Proof. reflexivity. Qed.

(** Data Link Layer State Changed (byte 3) is cleared with byte 2 enabled only, the interlock control
    reads as written, Link Equalization Request is assigned, DRS Message Received (byte 3) is
    cleared with byte 2 enabled. *)
Theorem C26_writes_refuted :
  (exists s data be, 0 <= be < 16 /\ wrong_bit pec_read pec_write pcie_rw pcie_w1c s 6 data be 24 = true) /\
  (exists s data be, 0 <= be < 16 /\ wrong_bit pec_read pec_write pcie_rw pcie_w1c s 6 data be 11 = true) /\
  (exists s data be, 0 <= be < 16 /\ wrong_bit pec_read pec_write pcie_rw pcie_w1c s 12 data be 21 = true) /\
  (exists s data be, 0 <= be < 16 /\ wrong_bit pec_read pec_write pcie_rw pcie_w1c s 12 data be 31 = true).
Proof.
  split; [exists (aset pe_data_link_layer_state_changed 1 pec_init), 0x01000000, 4|].
  { split; [lia|vm_compute; reflexivity]. }
  split; [exists pec_init, 0x800, 2; split; [lia|vm_compute; reflexivity]|].
  split; [exists pec_init, 0x200000, 4; split; [lia|vm_compute; reflexivity]|].
  exists (aset pe_drs_message_received 1 pec_init), 0x80000000, 4. split; [lia|vm_compute; reflexivity].
Qed.
(** Maximum Link Width and ASPM Support are not shown where they belong; a width of 16 changes the link
    speed; a component presence of 1 is shown as 4. *)
Theorem C26_layout_refuted :
  (exists s, s pe_max_link_width = 8 /\ wrong_field pec_read pcie_layout s 3 (Fld 4 6 (Num pe_max_link_width)) = true) /\
  (exists s, s pe_max_link_width = 16 /\ s pe_max_link_speed = 2 /\
     wrong_field pec_read pcie_layout s 3 (Fld 0 4 (Num pe_max_link_speed)) = true) /\
  (exists s, s pe_aspm_support = 3 /\ wrong_field pec_read pcie_layout s 3 (Fld 10 2 (Num pe_aspm_support)) = true) /\
  (exists s, s pe_downstream_component_presence = 1 /\
     wrong_field pec_read pcie_layout s 12 (Fld 28 3 (Num pe_downstream_component_presence)) = true).
Proof.
  split; [exists (aset pe_max_link_width 8 pec_init); split; [reflexivity|vm_compute; reflexivity]|].
  split; [exists (aset pe_max_link_width 16 (aset pe_max_link_speed 2 pec_init));
          split; [reflexivity|split; [reflexivity|vm_compute; reflexivity]]|].
  split; [exists (aset pe_aspm_support 3 pec_init); split; [reflexivity|vm_compute; reflexivity]|].
  exists (aset pe_downstream_component_presence 1 pec_init). split; [reflexivity|vm_compute; reflexivity].
Qed.
(** The register after Lane Error Status shows lanes 2 and 3 instead of 0 and 1. *)
Theorem C26_ext_layout_refuted : exists s,
  wrong_field pxc_read pcie_ext_layout s 3 (Fld 0 4 (Num (px_downstream_port_8gt_transmitter_preset 0))) = true.
Proof. exists (aset (px_downstream_port_8gt_transmitter_preset 0) 5 pxc_init). vm_compute. reflexivity. Qed.

(** ** C27 *)
Theorem C27_aer_writes : writes_follow aec_read aec_write aer_rw aer_w1c (tab []).
Proof. exact aec_write_ok. Qed.
(** The First Error Pointer and the outer two Root Error Command bits are missing here. *)
Theorem C27_aer_layout_partial : forall s r, 1 <= r -> exists v, aec_read s r = Some v /\
  shows (aer_layout r) (tab [(6, 0x1f); (11, 0x5)] r) s v.
Proof. exact aec_shows. Qed.
(** Data_Scale is missing here. *)
Theorem C27_pm_writes_partial : writes_follow pmc_read pmc_write pm_rw pm_w1c (tab [(1, 0x6000)]).
Proof. exact pmc_write_ok. Qed.
Theorem C27_pm_layout : forall s r, exists v, pmc_read s r = Some v /\ shows (pm_layout r) 0 s v.
Proof. exact pmc_shows. Qed.
Example C27_aer_ex : let s := aset ae_malformed_tlp_status 1 (aset ae_ecrc_error_status 1 aec_init) in
  aec_read s 1 = Some 0x000c0000 /\ aec_read (aec_write 1 0xffff0000 3 s) 1 = Some 0x000c0000 /\
  aec_read (aec_write 1 0x00040000 4 s) 1 = Some 0x00080000 /\
  aec_read (aec_write 2 0xffffffff 15 s) 2 = Some 0x07fff030.
Proof. vm_compute. auto. Qed.
Example C27_pm_ex : let s := aset pm_pme_status 1 (aset pm_power_state 3 pmc_init) in
  pmc_read s 1 = Some 0x8003 /\ pmc_read (pmc_write 1 0x9100 3 s) 1 = Some 0x1100.
Proof. vm_compute. auto. Qed.

(** Data_Scale is writable. *)
Theorem C27_pm_writes_refuted :
  exists s data be, 0 <= be < 16 /\ wrong_bit pmc_read pmc_write pm_rw pm_w1c s 1 data be 13 = true.
Proof. exists pmc_init, 0x2000, 2. split; [lia|vm_compute; reflexivity]. Qed.
(** A First Error Pointer of 18 (malformed TLP) is shown as 2; the correctable and fatal error reporting
    enables are swapped. *)
Theorem C27_aer_layout_refuted :
  (exists s, s ae_first_error_pointer = 18 /\ wrong_field aec_read aer_layout s 6 (Fld 0 5 (Num ae_first_error_pointer)) = true) /\
  (exists s, s ae_correctable_error_reporting_enable = 1 /\
     wrong_field aec_read aer_layout s 11 (Fld 0 1 (Flag ae_correctable_error_reporting_enable)) = true) /\
  (exists s, s ae_fatal_error_reporting_enable = 1 /\
     wrong_field aec_read aer_layout s 11 (Fld 2 1 (Flag ae_fatal_error_reporting_enable)) = true).
Proof.
  split; [exists (aset ae_first_error_pointer 18 aec_init); split; [reflexivity|vm_compute; reflexivity]|].
  split; [exists (aset ae_correctable_error_reporting_enable 1 aec_init); split; [reflexivity|vm_compute; reflexivity]|].
  exists (aset ae_fatal_error_reporting_enable 1 aec_init). split; [reflexivity|vm_compute; reflexivity].
Qed.

Print Assumptions C26_writes_partial.
Print Assumptions C26_layout_partial.
Print Assumptions C26_ext_writes.
Print Assumptions C26_ext_layout_partial.
Print Assumptions C26_writes_refuted.
Print Assumptions C26_layout_refuted.
Print Assumptions C26_ext_layout_refuted.
Print Assumptions C27_aer_writes.
Print Assumptions C27_aer_layout_partial.
Print Assumptions C27_pm_writes_partial.
Print Assumptions C27_pm_layout.
Print Assumptions C27_pm_writes_refuted.
Print Assumptions C27_aer_layout_refuted.
