(** Registers of the configuration space (C23), of the MSI and MSI-X capabilities (C43). *)
From Verif Require Import Base ModelAttrs ModelCaps ModelCapList ModelConfig ModelFunction
  SpecRegs SpecCaps SpecConfig ProofsRegs ProofsConfig ProofsConfigLow ProofsConfigTop PropertiesCapList.

(** Writes to a function, an endpoint and a bridge, including the registers of their capabilities.  Missing from
    the full statement: bit 30 of register 3 (Start BIST) and the bits of capabilities for which it is false (the
    third mask). *)
Theorem C23_function_partial : config_follow fn_read fn_write (cfg_masks fn_rw fn_w1c (tab [(3, 0x40000000)])).
Proof. exact fn_follow. Qed.
Theorem C23_endpoint_partial : config_follow ep_read ep_write (cfg_masks ep_rw ep_w1c (tab [(3, 0x40000000)])).
Proof. exact ep_follow. Qed.
Theorem C23_bridge_partial : config_follow br_read br_write (cfg_masks br_rw br_w1c (tab [(3, 0x40000000)])).
Proof. exact br_follow. Qed.
(** An endpoint with MSI at register 0x10, PM at 0x17, and a BAR of 64 KiB: the masks are those of the capability,
    writes set, clear and leave bits. *)
Definition f_ex : fnc := with_attr (fun s => aset fn_received_master_abort 1 (aset (fn_bar_mask 0) 0xffff0000 s)) f_ops0.
Example C23_masks_ex :
  let m := cfg_masks ep_rw ep_w1c (tab [(3, 0x40000000)]) f_ex in
  m 1 = Some (0x547, 0xf9000000, 0) /\ m 4 = Some (0xffff0000, 0, 0) /\ m 5 = Some (0, 0, 0) /\
  m 0x11 = Some (0xfffffffc, 0, 0) /\ m 0x18 = Some (0x1f03, 0x8000, 0x6000) /\ m 0x300 = Some (0, 0, 0).
Proof. vm_compute. repeat split. Qed.
Example C23_write_ex :
  ep_read f_ex 1 = Ok (Some 0x20100007) /\
  ep_read (ep_write 1 0xffffffff 0xe f_ex) 1 = Ok (Some 0x00100507) /\
  ep_read (ep_write 1 0xffffffff 0x7 f_ex) 1 = Ok (Some 0x20100547) /\
  ep_read (ep_write 4 0x12345678 0xf f_ex) 4 = Ok (Some 0x12340000) /\
  ep_read (ep_write 4 0x12345678 0x4 f_ex) 4 = Ok (Some 0x00340000) /\
  ep_read (ep_write 0x11 0x12345678 0x9 f_ex) 0x11 = Ok (Some 0x12000078) /\
  ep_read (ep_write 0x300 0x12345678 0xf f_ex) 0x300 = Ok (Some 0).
Proof. vm_compute. repeat split. Qed.

(** What the registers show. *)
Theorem C23_function_layout : forall f r, 0 <= r < 16 ->
  exists v, fn_read f r = Ok (Some v) /\ shows (common_layout r) 0 (f_attr f) v.
Proof. exact fn_shows. Qed.
Theorem C23_endpoint_layout : forall f r, 0 <= r < 16 ->
  exists v, ep_read f r = Ok (Some v) /\ shows (ep_layout r) 0 (f_attr f) v.
Proof. exact ep_shows. Qed.
Theorem C23_bridge_layout : forall f r, 0 <= r < 16 -> 0 <= f_attr f (fn_bar 0) < 2 ^ 32 ->
  0 <= f_attr f (fn_bar 1) < 2 ^ 32 -> 0 <= f_attr f fn_capabilities_ptr < 256 ->
  exists v, br_read f r = Ok (Some v) /\ shows (br_layout r) 0 (f_attr f) v.
Proof. exact br_shows. Qed.
Example C23_layout_ex :
  let f := with_attr (fun _ => aset fn_io_base 0x12345000 (aset fn_mem_limit 0xabcfffff (aset fn_sec_bus_num 5 bridge_init))) f_ops0 in
  br_read f 6 = Ok (Some 0x500) /\ br_read f 7 = Ok (Some 0x0151) /\ br_read f 8 = Ok (Some 0xabc00000) /\
  br_read f 12 = Ok (Some 0x1234).
Proof. vm_compute. repeat split. Qed.

(** Start BIST is written if byte enable 2 is set instead of byte enable 3, for all three kinds. *)
Theorem C23_bist_refuted : forall rd wr, In (rd, wr) [(fn_read, fn_write); (ep_read, ep_write); (br_read, br_write)] ->
  exists f d v v', rd f 3 = Ok (Some v) /\ rd (wr 3 d 4 f) 3 = Ok (Some v') /\ v' <> v /\ Z.testbit v' 30 <> Z.testbit v 30 /\
    rd (wr 3 d 8 f) 3 = Ok (Some v).
Proof.
  intros rd wr W. exists f_ops0, 0x40000000, 0, 0x40000000.
  destruct W as [W|[W|[W|[]]]]; injection W as <- <-; vm_compute; repeat split; discriminate.
Qed.

(** MSI.  Missing from the full statement: the extended message data enable, for which it is false, and the
    registers for which the code returns no value. *)
Theorem C43_msi_writes_partial : forall s reg data be r v, 0 <= be < 16 -> msc_read s r = Some v ->
  exists v', msc_read (msc_write reg data be s) r = Some v' /\ msi_rw (msc_write reg data be s) r = msi_rw s r /\
    if r =? reg then forall i, 0 <= i -> Z.testbit (tab [(0, 0x04000000)] r) i = false ->
      Z.testbit v' i = upd_bit (msi_rw s r) 0 be data v i
    else v' = v.
Proof. intros. eapply msi_follow; eassumption. Qed.
Theorem C43_msi_layout : forall s r v, msc_read s r = Some v -> shows (msi_layout s r) 0 s v.
Proof. exact msi_shows. Qed.
Theorem C43_msix_writes : writes_follow mxc_read mxc_write msix_rw (tab []) (tab []).
Proof. exact msix_follow. Qed.
Theorem C43_msix_layout : forall s r v, mxc_read s r = Some v -> shows (msix_layout r) 0 s v.
Proof. exact msix_shows. Qed.
Definition msi_ex : attrs :=
  aset ms_msi_64bit_address_capable 1 (aset ms_msi_per_vector_mask_capable 1 (aset ms_msi_multiple_message_capable 5 msc_init)).
Example C43_msi_ex :
  msc_read msi_ex 0 = Some 0x018a0000 /\
  msc_read (msc_write 0 0xffffffff 0xf msi_ex) 0 = Some 0x01fb0000 /\
  msc_read (msc_write 1 0x87654321 0xf (msc_write 2 0x12345678 0xf msi_ex)) 1 = Some 0x87654320 /\
  msc_read (msc_write 1 0x87654321 0xf (msc_write 2 0x12345678 0xf msi_ex)) 2 = Some 0x12345678 /\
  msc_read (msc_write 3 0x12345678 0x2 msi_ex) 3 = Some 0x5600 /\
  msc_read (msc_write 4 0x12345678 0xf msi_ex) 4 = Some 0x12345678 /\
  msc_read (msc_write 5 0x12345678 0xf msi_ex) 5 = Some 0.
Proof. vm_compute. repeat split. Qed.
Example C43_msix_ex :
  let s := aset mx_msix_table_size 0x1f (aset mx_msix_table_offset 0x4000 (aset mx_msix_table_bar_indicator_register 2 mxc_init)) in
  mxc_read (mxc_write 0 0xffffffff 0xf s) 0 = Some 0xc01f0000 /\ mxc_read (mxc_write 1 0 0xf s) 1 = Some 0x4002.
Proof. vm_compute. repeat split. Qed.
(** The extended message data enable takes bit 16 (the MSI enable) instead of bit 26, and byte enable 2 instead of 3. *)
Theorem C43_msi_refuted : exists s,
  (exists v v', msc_read s 0 = Some v /\ msc_read (msc_write 0 (2 ^ 26) 0xf s) 0 = Some v' /\
     Z.testbit (msi_rw s 0) 26 = true /\ Z.testbit v' 26 = false) /\
  (exists v v', msc_read s 0 = Some v /\ msc_read (msc_write 0 (2 ^ 16) 0xf s) 0 = Some v' /\
     Z.testbit v 26 = false /\ Z.testbit v' 26 = true).
Proof.
  exists (aset ms_msi_extended_message_data_capable 1 msc_init). split; do 2 eexists; vm_compute; repeat split.
Qed.
(** Registers within the length of the capability that are not implemented give no value at all, and a
    configuration read of them ends in an exception. *)
Theorem C43_msi_none_refuted : exists s r, 0 <= r < 6 /\ msc_read s r = None.
Proof. exists msc_init, 5. split; [lia|reflexivity]. Qed.

Print Assumptions C23_function_partial.
Print Assumptions C23_endpoint_partial.
Print Assumptions C23_bridge_partial.
Print Assumptions C23_function_layout.
Print Assumptions C23_endpoint_layout.
Print Assumptions C23_bridge_layout.
Print Assumptions C23_bist_refuted.
Print Assumptions C43_msi_writes_partial.
Print Assumptions C43_msi_layout.
Print Assumptions C43_msix_writes.
Print Assumptions C43_msix_layout.
Print Assumptions C43_msi_refuted.
Print Assumptions C43_msi_none_refuted.
