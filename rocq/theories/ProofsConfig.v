(** Configuration registers (C23). *)
From Verif Require Import Base BaseProofs Bits ModelUtils SpecUtils ProofsUtils ModelAttrs ModelCaps ModelCapList ModelConfig
  SpecRegs SpecCaps SpecConfig ProofsRegs ProofsCaps ProofsCapsLayout.

Ltac look_fn := cbv [aset aclear when Pos.eqb Z.to_pos Z.add Z.sub Z.mul Z.opp Z.pos_sub Pos.add Pos.succ Pos.add_carry Pos.pred_double f_attr with_attr with_heap
  fn_vendor_id fn_device_id fn_io_space_enable fn_memory_space_enable fn_bus_master_enable fn_parity_error_response_enable fn_serr_enable fn_interrupt_disable fn_interrupt_status fn_capabilities_list fn_master_data_parity_error fn_signaled_target_abort fn_received_target_abort fn_received_master_abort fn_signaled_system_error fn_detected_parity_error fn_revision_id fn_class_code fn_cache_line_size fn_latency_timer fn_header_layout fn_multifunction_device fn_bist_capable fn_start_bist fn_bist_completion_code fn_expansion_rom_addr fn_expansion_rom_addr_mask fn_expansion_rom_enable fn_capabilities_ptr fn_interrupt_line fn_interrupt_pin fn_bar fn_bar_mask fn_subsystem_vendor_id fn_subsystem_id fn_pri_bus_num fn_sec_bus_num fn_sub_bus_num fn_sec_lat_timer fn_io_base fn_io_limit fn_io_addr_capability fn_sec_master_data_parity_error fn_sec_signaled_target_abort fn_sec_received_target_abort fn_sec_received_master_abort fn_sec_received_system_error fn_sec_detected_parity_error fn_mem_base fn_mem_limit fn_prefetchable_mem_base fn_prefetchable_mem_limit fn_bridge_parity_error_response_enable fn_bridge_serr_enable fn_secondary_bus_reset].
Ltac look_ms := cbv [aset aclear when Pos.eqb Z.to_pos Z.add Z.sub Z.mul Z.opp Z.pos_sub Pos.add Pos.succ Pos.add_carry Pos.pred_double
  ms_msi_enable ms_msi_multiple_message_capable ms_msi_multiple_message_enable ms_msi_64bit_address_capable ms_msi_per_vector_mask_capable ms_msi_extended_message_data_capable ms_msi_extended_message_data_enable ms_msi_message_address ms_msi_message_data ms_msi_mask_bits ms_msi_pending_bits mx_msix_table_size mx_msix_function_mask mx_msix_enable mx_msix_table_bar_indicator_register mx_msix_table_offset mx_msix_pba_bar_indicator_register mx_msix_pba_offset].

Lemma OkSome_inj {A} (x y : A) : @Ok (option A) (Some x) = Ok (Some y) -> x = y.
Proof. congruence. Qed.

(** ** MSI and MSI-X *)
Lemma zbool_neqb x : zbool x = negb (x =? 0).
Proof. reflexivity. Qed.
Lemma msi_follow s reg data be r v : 0 <= be < 16 -> msc_read s r = Some v ->
  exists v', msc_read (msc_write reg data be s) r = Some v' /\ msi_rw (msc_write reg data be s) r = msi_rw s r /\
    if r =? reg then forall i, 0 <= i -> Z.testbit (tab [(0, 0x04000000)] r) i = false ->
      Z.testbit v' i = upd_bit (msi_rw s r) 0 be data v i
    else v' = v.
Proof.
  intros Hbe. unfold msc_read, msi_rw. rewrite <- !zbool_neqb.
  set (w := msc_write reg data be s).
  assert (F4 : zbool (w ms_msi_64bit_address_capable) = zbool (s ms_msi_64bit_address_capable) /\
    zbool (w ms_msi_extended_message_data_capable) = zbool (s ms_msi_extended_message_data_capable) /\
    zbool (w ms_msi_per_vector_mask_capable) = zbool (s ms_msi_per_vector_mask_capable)).
  { unfold w, msc_write. repeat match goal with |- context [if ?b then _ else _] => lazymatch b with context [reg] => destruct b end end;
    look_ms; rewrite ?if_same; auto. }
  destruct F4 as (-> & -> & ->). subst w. unfold msc_write.
  destruct (zbool (s ms_msi_64bit_address_capable)) eqn:A; destruct (zbool (s ms_msi_extended_message_data_capable)) eqn:E;
  destruct (zbool (s ms_msi_per_vector_mask_capable)) eqn:M;
  rewrite ?andb_true_r, ?andb_false_r, ?andb_true_l, ?andb_false_l; cbn iota;
  repeat (let N := fresh "N" in lazymatch goal with
    | |- context [if reg =? ?k then _ else _] => destruct (Z.eqb_spec reg k) as [N|N]; [subst reg|]
    end);
  repeat (let N := fresh "N" in lazymatch goal with
    | |- context [if r =? ?k then _ else _] => destruct (Z.eqb_spec r k) as [N|N]; [subst r|]
    end);
  intros H; try discriminate H; apply Some_inj in H; subst v; (eexists; split; [reflexivity|split; [reflexivity|]]);
  try match goal with |- context [?k =? reg] => destruct (Z.eqb_spec k reg); [subst reg; try (exfalso; lia)|] end;
  cbn [Z.eqb Pos.eqb tab]; look_ms; rewrite ?if_same; try reflexivity; try (intros; rewrite upd_none; reflexivity).
  all: try (apply upd_intro;
  [ split; [vm_compute; discriminate|reflexivity] | split; [vm_compute; discriminate|reflexivity] | reflexivity | unfold upd_z]).
  all: bitsimp; rewrite ?bmu_em8 by bits; rewrite ?bmu_em4 by lia; unfold em8, em4; bits.
Qed.
Ltac look_mx := cbv [aset aclear when Pos.eqb mx_msix_table_size mx_msix_function_mask mx_msix_enable mx_msix_table_bar_indicator_register
  mx_msix_table_offset mx_msix_pba_bar_indicator_register mx_msix_pba_offset].
Lemma msix_follow : writes_follow mxc_read mxc_write msix_rw (tab []) (tab []).
Proof.
  intros s reg data be r v Hbe. unfold mxc_read, mxc_write, msix_rw.
  repeat (let N := fresh "N" in lazymatch goal with
    | |- context [if r =? ?k then _ else _] => destruct (Z.eqb_spec r k) as [N|N]; [subst r|]
    end); intros H; try discriminate H; apply Some_inj in H; subst v; (eexists; split; [reflexivity|]);
  destruct (Z.eqb_spec reg 0); try subst reg;
  try match goal with |- context [?k =? reg] => destruct (Z.eqb_spec k reg); [subst reg; try (exfalso; lia)|] end;
  cbn [Z.eqb Pos.eqb tab]; look_mx; rewrite ?if_same; try reflexivity; try (intros; rewrite upd_none; reflexivity).
  all: upd_same.
Qed.

(** ** The registers before the capabilities *)
Lemma bmu_hi old be new bm : 0 <= be < 16 -> byte_mask_update old (Z.shiftl be 4) new bm =
  Z.lor (Z.land old (Z.lnot (Z.land (Z.shiftl (em4 be) 32) bm))) (Z.land new (Z.land (Z.shiftl (em4 be) 32) bm)).
Proof.
  intros H. rewrite bmu_em8 by bits. replace (em8 (Z.shiftl be 4)) with (Z.shiftl (em4 be) 32); [reflexivity|]. unfold em8, em4. bits.
Qed.
(** A bit written through a mask of unknown value. *)
Lemma bmu_follow s0 be data bm i : 0 <= be < 16 -> 0 <= i ->
  Z.testbit (byte_mask_update s0 be data bm) i = upd_bit (Z.land bm 0xffffffff) 0 be data s0 i.
Proof.
  intros H Hi. rewrite byte_mask_update_spec by lia. unfold upd_bit. rewrite Z.bits_0, Z.land_spec.
  change 0xffffffff with (Z.ones 32). rewrite Z.testbit_ones_nonneg by lia.
  destruct (i <? 32) eqn:L; [rewrite andb_true_r; destruct (Z.testbit be (i / 8)), (Z.testbit bm i); reflexivity|].
  rewrite (testbit_high be 4 (i / 8)) by lia. reflexivity.
Qed.
Lemma bmu_follow32 s0 be data bm i : 0 <= be < 16 -> 0 <= i ->
  Z.testbit (Z.land (byte_mask_update s0 be data bm) 0xffffffff) i = upd_bit (Z.land bm 0xffffffff) 0 be data (Z.land s0 0xffffffff) i.
Proof.
  intros H Hi. rewrite Z.land_spec, bmu_follow by assumption. unfold upd_bit. rewrite Z.bits_0, !Z.land_spec.
  change 0xffffffff with (Z.ones 32). rewrite Z.testbit_ones_nonneg by lia.
  destruct (i <? 32) eqn:L; [rewrite !andb_true_r; reflexivity|].
  rewrite (testbit_high be 4 (i / 8)) by lia. rewrite !andb_false_r. reflexivity.
Qed.
Lemma rom_follow a bm en be data i : 0 <= be < 16 -> 0 <= i ->
  Z.testbit (Z.lor (Z.b2z (zbool (if bit be 0 then Z.b2z (bit data 0) else en)))
    (Z.land (Z.land (byte_mask_update a be data bm) 0xfffff800) 0xfffff800)) i =
  upd_bit (Z.lor (Z.land bm 0xfffff800) 1) 0 be data (Z.lor (Z.b2z (zbool en)) (Z.land a 0xfffff800)) i.
Proof.
  intros H Hi. revert Hi. enough (E : forall i, 0 <= i -> Z.testbit 0 i = false -> Z.testbit (Z.lor (Z.b2z (zbool (if bit be 0 then Z.b2z (bit data 0) else en)))
    (Z.land (Z.land (byte_mask_update a be data bm) 0xfffff800) 0xfffff800)) i =
  upd_bit (Z.lor (Z.land bm 0xfffff800) 1) 0 be data (Z.lor (Z.b2z (zbool en)) (Z.land a 0xfffff800)) i).
  { intros Hi. apply E; [exact Hi|apply Z.bits_0]. }
  apply upd_intro; [bits|lia|apply Z.land_0_r|]. unfold upd_z. bitsimp. rewrite bmu_em4 by lia. unfold em4. bits.
Qed.
