(** C54: the configuration outputs of the Intel device models. *)
From Verif Require Import Base ModelUtils ModelTlp ModelAttrs ModelCaps ModelCapList ModelConfig ModelTlCfg SpecRegs SpecCaps SpecConfig SpecTlCfg ProofsTlCfg.

(** In every cycle the signals show the word and the function whose turn it is, and the word shows the registers as the host sees them at that time.
    The AER interrupt message number in word 1 of the L-Tile is missing here. *)
Theorem C54_words_partial : forall t nf h n, (0 < nf)%nat ->
  Forall (fun fs => length fs = nf /\ Forall (fun f => msi_ok (w_ms f)) fs) h -> (n < length h)%nat ->
  let (i, k) := turn t nf n in
  exists fn v, nth_error (tl_run t h tl_start) n = Some (fn, Z.of_nat k, v) /\
    (exists fs f, nth_error h (n - k) = Some fs /\ nth_error fs i = Some f /\ fn = func (w_id f)) /\
    (exists fs f, nth_error h (taken t k n) = Some fs /\ nth_error fs i = Some f /\
       mirrors (bits_of t) (nth k (words t) []) (left_out t k f) f v).
Proof. exact cfg_ok. Qed.
(** Every word of every function is shown once in a period. *)
Theorem C54_turns : forall t nf n0 i k, (i < nf)%nat -> (k < count t)%nat ->
  exists n, (n0 <= n < n0 + nf * count t)%nat /\ turn t nf n = (i, k) /\
    forall m, (n0 <= m < n0 + nf * count t)%nat -> turn t nf m = (i, k) -> m = n.
Proof. exact turn_once. Qed.
(** What the host has written to a register is what the user logic sees. *)
Theorem C54_follows_partial : forall t nf h n i k m fs f data, (0 < nf)%nat ->
  Forall (fun fs => length fs = nf /\ Forall (fun f => msi_ok (w_ms f)) fs) h -> (n < length h)%nat ->
  turn t nf n = (i, k) -> In m (nth k (words t) []) -> nth_error h (taken t k n) = Some fs ->
  nth_error fs i = Some (host_writes f (m_src m) (m_reg m) data) -> msi_ok (w_ms f) ->
  (forall j, m_lo m <= j < m_lo m + m_width m -> Z.testbit (writable f (m_src m) (m_reg m)) j = true) -> (m_src m, m_reg m, m_lo m) <> (InMs, 0, 26) ->
  (forall j, m_at m <= j < m_at m + m_width m -> Z.testbit (left_out t k (host_writes f (m_src m) (m_reg m) data)) j = false) ->
  exists fn v, nth_error (tl_run t h tl_start) n = Some (fn, Z.of_nat k, v) /\ slice v (m_at m) (m_width m) = slice data (m_lo m) (m_width m).
Proof. exact cfg_follows. Qed.
(** The condition on MSI holds for the functions of the device models at the start and is kept by the host's writes. *)
Theorem C54_msi_start : msi_ok (aset ms_msi_64bit_address_capable 1 (aset ms_msi_per_vector_mask_capable 0 msc_init)).
Proof. exact msi_start. Qed.
Theorem C54_msi_kept : forall s reg data be, 0 <= be < 16 -> 0 <= data < 2 ^ 32 -> msi_ok s -> msi_ok (msc_write reg data be s).
Proof. exact msi_write_ok. Qed.

(** Two functions; the second one is on bus 5, with 512 byte payloads, 4096 byte read requests, extended tags and MSI set up by the host. *)
Definition z : attrs := fun _ => 0.
Definition ms_new : attrs := aset ms_msi_64bit_address_capable 1 (aset ms_msi_per_vector_mask_capable 0 msc_init).
Definition f_a : cfn := mkCfn (mkId 5 0 0) z z z ms_new z z.
Definition f_b : cfn := mkCfn (mkId 5 0 1)
  (ModelConfig.f_attr (ep_write 1 6 0xf (mkFn z (fun _ => mkCap KMsi 0 0 0 None 0 z) [] [] (mkId 5 0 1))))
  (pec_write 2 0x5140 0xf z) z
  (msc_write 3 0x1234 0xf (msc_write 2 0xab 0xf (msc_write 1 0xfee00000 0xf (msc_write 0 0x00310000 0xf ms_new)))) z (aec_write 2 0x00100020 0xf z).
Example C54_ok_ex : msi_ok (w_ms f_a) /\ msi_ok (w_ms f_b).
Proof. split; [exact msi_start|]. repeat (apply msi_write_ok; [lia|lia|]). exact msi_start. Qed.
Example C54_h_ex : tl_run TileH (repeat [f_a; f_b] 21) tl_start =
  [(0, 0, 0x50000); (0, 1, 0); (0, 2, 0); (0, 3, 0); (0, 4, 0); (0, 5, 0); (0, 6, 2); (0, 7, 0); (0, 8, 0); (0, 9, 0);
   (1, 0, 0x580ea); (1, 1, 0); (1, 2, 0); (1, 3, 0xfee00000); (1, 4, 0xab); (1, 5, 0); (1, 6, 0x1234000f); (1, 7, 0x00100020); (1, 8, 0); (1, 9, 0);
   (0, 0, 0x50000)].
Proof. vm_compute. reflexivity. Qed.
(** The host changes the mask register after the lower half has been shown: the upper half is still the old one. *)
Definition f_c : cfn := mkCfn (mkId 5 0 1) z z z ms_new z (aec_write 2 0x02000000 0xf z).
Example C54_p_ex : skipn 13 (tl_run TileP (repeat [f_b] 15 ++ repeat [f_c] 34) tl_start) =
  [(1, 13, 0x1234); (1, 14, 0x20); (1, 15, 0x10); (1, 16, 0); (1, 17, 0); (1, 18, 0); (1, 19, 0); (1, 20, 0); (1, 21, 0); (1, 22, 0); (1, 23, 0); (1, 24, 0);
   (1, 25, 0); (1, 26, 0); (1, 27, 0); (1, 28, 0); (1, 29, 0); (1, 30, 0); (1, 31, 0); (1, 0, 0); (1, 1, 5); (1, 2, 0); (1, 3, 0); (1, 4, 0); (1, 5, 0);
   (1, 6, 0); (1, 7, 0); (1, 8, 0); (1, 9, 0); (1, 10, 0); (1, 11, 0); (1, 12, 2); (1, 13, 0); (1, 14, 0); (1, 15, 0x200); (1, 16, 0)].
Proof. vm_compute. reflexivity. Qed.
Example C54_turn_ex : turn TileH 2 17 = (1%nat, 7%nat) /\ turn TileP 3 100 = (0%nat, 4%nat) /\ taken TileP 15 47 = 46%nat.
Proof. repeat split. Qed.
Example C54_follows_ex : exists m, In m (nth 0 (words TileH) []) /\ m_src m = InPe /\ m_reg m = 2 /\ m_at m = 3 /\ m_width m = 3 /\
  slice 0x5140 (m_lo m) (m_width m) = 5 /\ forallb (fun j => Z.testbit (writable f_b (m_src m) (m_reg m)) j) [12; 13; 14] = true /\
  left_out TileH 0 f_b = 0.
Proof. exists (Mi 3 3 InPe 2 12). cbn. repeat split. repeat (first [left; reflexivity|right]). Qed.

(** The L-Tile puts the AER interrupt message number at bit 28 instead of 24, over the root error enables: with number 1 the user logic sees number 16.
    Numbers from 16 on do not fit the signal. *)
Theorem C54_ltile_refuted : exists f m, msi_ok (w_ms f) /\ In m (nth 1 (words TileL) []) /\ m_at m = 24 /\
  host_reads f (m_src m) (m_reg m) = Some (1 * 2 ^ 27) /\ m_lo m = 27 /\
  exists v, nth_error (tl_run TileL [[f]; [f]] tl_start) 1 = Some (0, 1, v) /\ slice v 24 5 = 16.
Proof.
  exists (mkCfn (mkId 0 0 0) z z z ms_new z (aset ae_advanced_error_interrupt_message_number 1 z)), (aer_number 24).
  split; [exact msi_start|]. split; [cbn; tauto|]. split; [reflexivity|]. split; [vm_compute; reflexivity|]. split; [reflexivity|].
  eexists. split; [vm_compute; reflexivity|vm_compute; reflexivity].
Qed.
Theorem C54_ltile_enable_refuted : exists f m, msi_ok (w_ms f) /\ In m (nth 1 (words TileL) []) /\ m_at m = 29 /\
  host_reads f (m_src m) (m_reg m) = Some 0 /\
  exists v, nth_error (tl_run TileL [[f]; [f]] tl_start) 1 = Some (0, 1, v) /\ slice v 29 1 = 1.
Proof.
  exists (mkCfn (mkId 0 0 0) z z z ms_new z (aset ae_advanced_error_interrupt_message_number 2 z)), (root_ctl 29 0).
  split; [exact msi_start|]. split; [cbn; tauto|]. split; [reflexivity|]. split; [vm_compute; reflexivity|].
  eexists. split; [vm_compute; reflexivity|vm_compute; reflexivity].
Qed.
Theorem C54_ltile_width_refuted : exists f v, msi_ok (w_ms f) /\ 0 <= w_ae f ae_advanced_error_interrupt_message_number < 32 /\
  nth_error (tl_run TileL [[f]; [f]] tl_start) 1 = Some (0, 1, v) /\ 2 ^ 32 <= v.
Proof.
  exists (mkCfn (mkId 0 0 0) z z z ms_new z (aset ae_advanced_error_interrupt_message_number 16 z)), (2 ^ 32).
  split; [exact msi_start|]. split; [vm_compute; split; congruence|]. split; [vm_compute; reflexivity|lia].
Qed.

Print Assumptions C54_words_partial.
Print Assumptions C54_turns.
Print Assumptions C54_follows_partial.
Print Assumptions C54_msi_start.
Print Assumptions C54_msi_kept.
Print Assumptions C54_ltile_refuted.
Print Assumptions C54_ltile_enable_refuted.
Print Assumptions C54_ltile_width_refuted.
