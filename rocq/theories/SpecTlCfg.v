(** What the configuration outputs of the Intel hard IPs show: the fields of the configuration registers, as the host sees them.

    Each field of a word is described by its position and width and by the register it mirrors and the position there, from the user guides
    (Stratix 10 Avalon-ST: tl_cfg, P-Tile: Configuration Output Interface) and the PCI Express Base Specification, sections 7.5 and 7.8. *)
From Verif Require Import Base ModelUtils ModelTlp ModelAttrs ModelCapList ModelCaps ModelConfig ModelTlCfg
  SpecRegs SpecCaps SpecConfig.

Inductive source := InBus | InDev | InFn | InPe | InPm | InMs | InMx | InAe.
(** What the host reads in a register, or the ID it has assigned. *)
Definition host_reads (f : cfn) (x : source) (r : Z) : option Z :=
  match x with
  | InBus => Some (bus (w_id f))
  | InDev => Some (device (w_id f))
  | InFn => match fn_read (mkFn (w_fn f) (fun _ => mkCap KMsi 0 0 0 None 0 (fun _ => 0)) [] [] (w_id f)) r with Ok o => o | Err _ => None end
  | InPe => pec_read (w_pe f) r
  | InPm => pmc_read (w_pm f) r
  | InMs => msc_read (w_ms f) r
  | InMx => mxc_read (w_mx f) r
  | InAe => aec_read (w_ae f) r
  end.
(** Position and width in the word; the register and the position there. *)
Record mirror := Mi { m_at : Z; m_width : Z; m_src : source; m_reg : Z; m_lo : Z }.
(** Command register; device control, link control/status, slot control, root control, device control 2 of the PCI Express capability. *)
Definition cmd (at_ b : Z) := Mi at_ 1 InFn 1 b.
Definition dev_ctl (at_ w b : Z) := Mi at_ w InPe 2 b.
Definition link_ctl (at_ w b : Z) := Mi at_ w InPe 4 b.
Definition slot_ctl (at_ w b : Z) := Mi at_ w InPe 6 b.
Definition root_ctl (at_ b : Z) := Mi at_ 1 InPe 7 b.
Definition dev_ctl2 (at_ b : Z) := Mi at_ 1 InPe 10 b.
Definition aer_number (at_ : Z) := Mi at_ 5 InAe 12 27.

Definition h_words : list (list mirror) := [
  [dev_ctl2 31 8; dev_ctl 30 1 11; dev_ctl 29 1 4; Mi 24 5 InDev 0 0; Mi 16 8 InBus 0 0; cmd 15 1; dev_ctl2 14 9; cmd 13 6; cmd 12 8;
   dev_ctl 11 1 2; dev_ctl 10 1 1; dev_ctl 9 1 0; dev_ctl 8 1 3; cmd 7 2; dev_ctl 6 1 8; dev_ctl 3 3 12; dev_ctl 0 3 5];
  [Mi 15 1 InPm 1 3; link_ctl 14 1 3; cmd 13 10; Mi 8 5 InPe 0 25; slot_ctl 4 1 10; slot_ctl 2 2 6; slot_ctl 0 2 8];
  [link_ctl 28 4 16; dev_ctl2 7 5; dev_ctl2 6 6];
  [Mi 0 32 InMs 1 0];
  [Mi 0 32 InMs 2 0];
  [Mi 0 32 InMs 4 0];
  [Mi 16 16 InMs 3 0; root_ctl 15 2; root_ctl 14 1; root_ctl 13 0; aer_number 8; Mi 6 1 InMx 0 30; Mi 5 1 InMx 0 31; Mi 2 3 InMs 0 20; Mi 1 1 InMs 0 23; Mi 0 1 InMs 0 16];
  [Mi 0 32 InAe 2 0];
  [Mi 0 32 InAe 5 0];
  [Mi 0 32 InAe 3 0]].
Definition l_words : list (list mirror) := [
  [dev_ctl2 31 8; dev_ctl 30 1 11; dev_ctl 29 1 4; Mi 24 5 InDev 0 0; Mi 16 8 InBus 0 0; cmd 15 1; dev_ctl2 14 9; link_ctl 8 6 20;
   cmd 7 2; dev_ctl 6 1 8; dev_ctl 3 3 12; dev_ctl 0 3 5];
  [root_ctl 31 2; root_ctl 30 1; root_ctl 29 0; aer_number 24; link_ctl 18 6 20; Mi 17 1 InPm 1 3; link_ctl 16 1 3; cmd 13 10; Mi 8 5 InPe 0 25;
   slot_ctl 4 1 10; slot_ctl 2 2 6; slot_ctl 0 2 8];
  [link_ctl 12 4 16; dev_ctl2 5 5; dev_ctl2 4 6];
  [Mi 0 32 InMs 1 0];
  [Mi 0 32 InMs 2 0];
  [Mi 0 32 InMs 4 0];
  [Mi 16 16 InMs 3 0; Mi 6 1 InMx 0 30; Mi 5 1 InMx 0 31; Mi 2 3 InMs 0 20; Mi 1 1 InMs 0 23; Mi 0 1 InMs 0 16];
  [link_ctl 6 4 16; link_ctl 0 6 20]].
Definition p_words : list (list mirror) := [
  [cmd 15 1; dev_ctl2 14 9; cmd 13 6; cmd 12 8; dev_ctl 11 1 2; dev_ctl 10 1 1; dev_ctl 9 1 0; dev_ctl 8 1 3; cmd 7 2; dev_ctl 6 1 8; dev_ctl 3 3 12; dev_ctl 0 3 5];
  [dev_ctl2 15 8; dev_ctl 14 1 11; dev_ctl 13 1 4; Mi 8 5 InDev 0 0; Mi 0 8 InBus 0 0];
  [Mi 15 1 InPm 1 3; link_ctl 14 1 3; cmd 13 10; Mi 8 5 InPe 0 25; slot_ctl 4 1 10; slot_ctl 2 2 6; slot_ctl 0 2 8];
  [];
  [dev_ctl2 14 7; dev_ctl2 7 5; dev_ctl2 6 6];
  [link_ctl 12 4 16];
  [Mi 0 16 InMs 1 0]; [Mi 0 16 InMs 1 16]; [Mi 0 16 InMs 2 0]; [Mi 0 16 InMs 2 16];
  [Mi 0 16 InMs 4 0]; [Mi 0 16 InMs 4 16];
  [root_ctl 15 2; root_ctl 14 1; root_ctl 13 0; aer_number 8; Mi 7 1 InMs 0 26; Mi 6 1 InMx 0 30; Mi 5 1 InMx 0 31; Mi 2 3 InMs 0 20; Mi 1 1 InMs 0 23; Mi 0 1 InMs 0 16];
  [Mi 0 16 InMs 3 0];
  [Mi 0 16 InAe 2 0]; [Mi 0 16 InAe 2 16]; [Mi 0 16 InAe 5 0]; [Mi 0 16 InAe 5 16]; [Mi 0 16 InAe 3 0]; [Mi 0 16 InAe 3 16];
  []; []; []; []; []; []; []; [];
  [link_ctl 0 6 20]; [Mi 0 16 InMs 3 16]; []; []].
Definition words (t : tile) : list (list mirror) := match t with TileH => h_words | TileL => l_words | TileP => p_words end.
Definition bits_of (t : tile) : Z := match t with TileP => 16 | _ => 32 end.
(** A word shows the fields [l] of the registers, leaves out what touches [exc], and is 0 elsewhere; it fits the signal if nothing is left out.
    A register that is not there is taken as 0. *)
Definition reads0 (o : option Z) : Z := match o with Some v => v | None => 0 end.
Definition mirrors (n : Z) (l : list mirror) (exc : Z) (f : cfn) (v : Z) : Prop :=
  (exc = 0 -> 0 <= v < 2 ^ n) /\
  (forall m, In m l -> (forall i, m_at m <= i < m_at m + m_width m -> Z.testbit exc i = false) ->
     slice v (m_at m) (m_width m) = slice (reads0 (host_reads f (m_src m) (m_reg m))) (m_lo m) (m_width m)) /\
  (forall i, 0 <= i -> (forall m, In m l -> ~ (m_at m <= i < m_at m + m_width m)) -> Z.testbit exc i = false -> Z.testbit v i = false).
(** The MSI capability of the Intel functions: 64 bit addresses, masks only with masking per vector; its registers hold what can be written to them. *)
Record msi_ok (s : attrs) : Prop := {
  mo_64 : s ms_msi_64bit_address_capable <> 0;
  mo_mask : s ms_msi_per_vector_mask_capable = 0 -> s ms_msi_mask_bits = 0;
  mo_addr : 0 <= s ms_msi_message_address < 2 ^ 64 /\ s ms_msi_message_address mod 4 = 0;
  mo_data : 0 <= s ms_msi_message_data < (if s ms_msi_extended_message_data_capable =? 0 then 2 ^ 16 else 2 ^ 32);
  mo_bits : 0 <= s ms_msi_mask_bits < 2 ^ 32 }.
(** What the L-Tile words get wrong: the AER interrupt message number in word 1, unless it is 0. *)
Definition left_out (t : tile) (k : nat) (f : cfn) : Z :=
  match t, k with
  | TileL, 1%nat => if (w_ae f ae_advanced_error_interrupt_message_number) mod 32 =? 0 then 0 else 0x1ff000000
  | _, _ => 0
  end.
(** The order of the outputs: all words of one function, then those of the next one.  The upper halves of the AER registers of the P-Tile are
    taken at the same time as the lower halves, one cycle before. *)
Definition count (t : tile) : nat := length (words t).
Definition turn (t : tile) (nf n : nat) : nat * nat := ((n / count t) mod nf, n mod count t)%nat.
Definition taken (t : tile) (k n : nat) : nat :=
  match t, k with TileP, 15%nat | TileP, 17%nat | TileP, 19%nat => n - 1 | _, _ => n end.
(** The host writes all of a register. *)
Definition host_writes (f : cfn) (x : source) (r data : Z) : cfn :=
  let 'mkCfn id fn pe pm ms mx ae := f in
  match x with
  | InFn => mkCfn id (ModelConfig.f_attr (ep_write r data 0xf (mkFn fn (fun _ => mkCap KMsi 0 0 0 None 0 (fun _ => 0)) [] [] id))) pe pm ms mx ae
  | InPe => mkCfn id fn (pec_write r data 0xf pe) pm ms mx ae
  | InPm => mkCfn id fn pe (pmc_write r data 0xf pm) ms mx ae
  | InMs => mkCfn id fn pe pm (msc_write r data 0xf ms) mx ae
  | InMx => mkCfn id fn pe pm ms (mxc_write r data 0xf mx) ae
  | InAe => mkCfn id fn pe pm ms mx (aec_write r data 0xf ae)
  | InBus | InDev => f
  end.
(** The bits the host can write. *)
Definition writable (f : cfn) (x : source) (r : Z) : Z :=
  match x with
  | InFn => ep_rw (w_fn f) r
  | InPe => pcie_rw r
  | InPm => pm_rw r
  | InMs => msi_rw (w_ms f) r
  | InMx => msix_rw r
  | InAe => aer_rw r
  | InBus | InDev => 0
  end.
