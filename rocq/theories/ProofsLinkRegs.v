(** The link status register of the vendor functions, as the host reads it. *)
From Verif Require Import Base BaseProofs Bits ModelUtils ModelTlp ModelAttrs ModelCaps ModelCapList ModelConfig ModelFunction ModelHost ModelPci ModelPciCaps
  ModelVendorFn SpecRegs SpecConfig SpecHost SpecCapList SpecCapFn SpecPciCaps SpecVendorFn ProofsRegs ProofsCaps ProofsCapList ProofsCapFn ProofsCapWalk
  ProofsHost ProofsPciCaps ProofsBar ProofsVendorFn.
Lemma link_word c : c_kind c = KPcie -> exists v, cap_read c 4 = Ok (Some v) /\ 0 <= v < 2 ^ 32 /\
  v / 2 ^ 16 mod 2 ^ 4 = c_attr c pe_current_link_speed mod 16 /\ v / 2 ^ 20 mod 2 ^ 6 = c_attr c pe_negotiated_link_width mod 64.
Proof.
  intros K. unfold cap_read. rewrite K. cbn [is_ext kind_read]. unfold pec_read. change (4 =? 0) with false. change (4 =? 1) with false. change (4 =? 2) with false.
  change (4 =? 3) with false. change (4 =? 4) with true. cbv iota zeta. eexists. split; [reflexivity|]. bools.
  match goal with |- 0 <= ?x < _ /\ _ => set (X := x) end.
  split; [apply range32; unfold X; bits|].
  assert (E1 : Z.land (Z.shiftr X 16) (Z.ones 4) = Z.land (c_attr c pe_current_link_speed) (Z.ones 4)) by (change (Z.ones 4) with 15; unfold X; bits).
  assert (E2 : Z.land (Z.shiftr X 20) (Z.ones 6) = Z.land (c_attr c pe_negotiated_link_width) (Z.ones 6)) by (change (Z.ones 6) with 63; unfold X; bits).
  split; [rewrite (slice_of X 16 4 _ ltac:(lia) ltac:(lia) E1), Z.land_ones by lia; reflexivity|].
  rewrite (slice_of X 20 6 _ ltac:(lia) ltac:(lia) E2), Z.land_ones by lia. reflexivity.
Qed.
Lemma host_link v id pf mps tag c ops tg crs dev : ptr_kept ops -> caps_kept ops ->
  let f := vrun ops (vendor_fn v id pf mps tag c) in at_id dev f ->
  exists w, cap_read_word (config_read (cfg_deliver ep_read ep_write tg) crs dev) (mkFound (expected v c) []) (CapId 0x10) 0x12 f = Ok (with_id dev f, w) /\
    w mod 2 ^ 4 = 0 /\ w / 2 ^ 4 mod 2 ^ 6 = 0.
Proof.
  intros PK CK f A. destruct (pcie_lookup v c) as (Hi & L). destruct (f_kind v id pf mps tag c ops PK i_pcie Hi) as (K & _). fold f in K.
  destruct (link_word _ K) as (x & X1 & X2 & X3 & X4). exists (x / 65536). 
  assert (L' : cap_offset (CapId 0x10) (mkFound (expected v c) []) = Ok (4 * place v i_pcie)) by (unfold cap_offset; rewrite L; destruct v; reflexivity).
  unfold cap_read_word, capability_read. rewrite L'. cbn [bind].
  replace (0x12 + 4 * place v i_pcie) with (4 * (place v i_pcie + 4) + 2) by lia.
  rewrite (vendor_half v c f (f_shaped v id pf mps tag c ops PK) tg crs dev A i_pcie 4 x Hi ltac:(cbn; lia) ltac:(destruct v; cbn; lia) X1 X2). cbn [bind].
  rewrite (half_word x X2). split; [reflexivity|].
  assert (A1 : c_attr (f_heap f i_pcie) pe_current_link_speed = 0).
  { unfold f. rewrite (f_attr_ro v id pf mps tag c ops PK CK i_pcie _ Hi) by (cbn; tauto). clear. destruct c as [m y]. destruct v, m, y; reflexivity. }
  assert (A2 : c_attr (f_heap f i_pcie) pe_negotiated_link_width = 0).
  { unfold f. rewrite (f_attr_ro v id pf mps tag c ops PK CK i_pcie _ Hi) by (cbn; tauto). clear. destruct c as [m y]. destruct v, m, y; reflexivity. }
  rewrite A1 in X3. rewrite A2 in X4. split; [exact X3|]. rewrite shift_word by lia. exact X4.
Qed.
