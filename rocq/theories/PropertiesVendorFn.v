(** The functions of the vendor device models (C52). *)
From Verif Require Import Base ModelUtils ModelTlp ModelAttrs ModelCaps ModelCapList ModelConfig ModelFunction ModelHost ModelPci ModelPciCaps ModelVendorFn
  SpecRegs SpecConfig SpecHost SpecCapFn SpecPciCaps SpecVendorFn ProofsHost ProofsBar ProofsVendorFn.

(** Whatever is configured and whatever happens afterwards, the host finds the legacy capabilities that are enabled, and only these, at
    the addresses that the constructor asks for.  Missing from the full statement: the extended capabilities, see
    [C52_extended_refuted]. *)
Theorem C52_walk_partial : forall v id pf mps tag c ops tg crs dev fuel, ptr_kept ops ->
  let f := vrun ops (vendor_fn v id pf mps tag c) in at_id dev f -> (5 <= fuel)%nat ->
  walk_capabilities (config_read (cfg_deliver ep_read ep_write tg) crs dev) fuel f = Ok (with_id dev f, mkFound (expected v c) []).
Proof. intros v id pf mps tag c ops tg crs dev fuel P f. exact (vendor_walk v c f tg crs dev fuel (f_shaped v id pf mps tag c ops P)). Qed.
(** The extended capabilities are registered, but nowhere in the configuration space: all extended registers read as 0. *)
Theorem C52_extended_refuted : forall v id pf mps tag c ops tg crs dev fuel, ptr_kept ops ->
  let f := vrun ops (vendor_fn v id pf mps tag c) in at_id dev f -> (5 <= fuel)%nat ->
  (forall i, In i [i_aer; i_pxc] -> In i (f_caps f) /\ In (cap_ident true (f_heap f i), 4 * off (f_heap f i)) (documented_ext v)) /\
  (forall reg, 64 <= reg < 1024 -> ep_read f reg = Ok (Some 0)) /\
  exists g p, walk_capabilities (config_read (cfg_deliver ep_read ep_write tg) crs dev) fuel f = Ok (g, p) /\ found_ext p <> documented_ext v.
Proof.
  intros v id pf mps tag c ops tg crs dev fuel P f A F. pose proof (f_shaped v id pf mps tag c ops P) as SH. fold f in SH. split; [|split].
  - intros i Hi. rewrite (sh_caps _ _ _ SH). split; [apply in_or_app; right; exact Hi|].
    destruct (sh_each _ _ _ SH i (in_or_app _ _ _ (or_intror Hi))) as (Q1 & _ & _ & Q4). unfold cap_ident. rewrite Q1, Q4.
    destruct Hi as [<-|[<-|[]]]; destruct v; vm_compute; tauto.
  - intros reg H. rewrite (proj2 (ProofsCapWalk.space_read _ _ f reg (kinds_spaces _ _ _ ep_kind)) H), (sh_ecaps _ _ _ SH). reflexivity.
  - do 2 eexists. split; [exact (C52_walk_partial v id pf mps tag c ops tg crs dev fuel P A F)|]. discriminate.
Qed.
Definition cfg0 : pf_cfg := mkPf (Some 5) (Some (mkMx 31 2 0x1000 3 0x2000)).
Definition cfg1 : pf_cfg := mkPf None (Some (mkMx 31 2 0x1000 3 0x2000)).
Definition ops_use : list vop := [VId (mkId 3 0 1); VWrite 0x24 0xffffffff 0xf; VFn fn_bus_master_enable 1; VWrite 1 7 1; VCap i_msix mx_msix_table_size 7; VId (mkId 5 0 1)].
Definition used (v : vendor) (c : pf_cfg) : fnc := vrun ops_use (vendor_fn v (mkId 0 0 1) 1 512 1 c).
Example C52_walk_ex : ptr_kept ops_use /\ at_id (mkId 5 0 1) (used VUs cfg0) /\
  (exists g, walk_capabilities (config_read (cfg_deliver ep_read ep_write (fun _ => 7)) None (mkId 5 0 1)) 9 (used VUs cfg0) =
     Ok (g, mkFound [(0x01, 0x80); (0x05, 0x90); (0x11, 0xb0); (0x10, 0xc0)] [])) /\
  expected VS10 cfg1 = [(0x01, 0x40); (0x10, 0x70); (0x11, 0xb0)].
Proof.
  assert (P : ptr_kept ops_use) by (intros x H; repeat (destruct H as [H|H]; [discriminate H|]); destruct H).
  split; [exact P|]. split; [split; reflexivity|]. split; [|reflexivity]. eexists. unfold used.
  rewrite (C52_walk_partial VUs (mkId 0 0 1) 1 512 1 cfg0 ops_use (fun _ => 7) None (mkId 5 0 1) 9 P); [reflexivity|split; reflexivity|lia].
Qed.

(** MSI: what the host reads from the capability it found; a 64 bit address, and the smallest number of vectors that is enough.
    Missing from the full statement: physical functions 2 and 3 of UltraScale+ and Stratix 10, for which it is false. *)
Theorem C52_msi_partial : forall v id pf mps tag c ops tg crs dev n, ptr_kept ops -> caps_kept ops ->
  let f := vrun ops (vendor_fn v id pf mps tag c) in at_id dev f -> pf_msi c = Some n -> 1 <= n <= 32 -> (pf <= 1 \/ v = VPtile) ->
  exists w, cap_read_word (config_read (cfg_deliver ep_read ep_write tg) crs dev) (mkFound (expected v c) []) (CapId 0x05) 2 f = Ok (with_id dev f, w) /\
    w / 2 ^ 7 mod 2 = 1 /\ let vectors := 2 ^ (w / 2 mod 8) in n <= vectors /\ forall j, 0 <= j -> n <= 2 ^ j -> vectors <= 2 ^ j.
Proof.
  intros v id pf mps tag c ops tg crs dev n P CK f A E B Q. destruct (host_msi v id pf mps tag c ops tg crs dev P CK A n E) as (w & W1 & W2 & W3).
  exists w. split; [exact W1|]. split; [exact W3|]. apply least_power; [exact B|]. rewrite <- (f_equal (fun x => bit_length (n - x) mod 8) (y := 1) (x := msi_less v pf)).
  - exact W2.
  - destruct Q as [Q| ->]; [|reflexivity]. unfold msi_less. destruct v; try reflexivity; replace (pf =? 2) with false by lia; replace (pf =? 3) with false by lia; reflexivity.
Qed.
Theorem C52_msi_refuted : forall v pf m, In v [VUsp; VS10] -> In pf [2; 3] -> exists n, 1 <= n <= 32 /\ forall id mps tag ops tg crs dev, ptr_kept ops -> caps_kept ops ->
  let c := mkPf (Some n) m in let f := vrun ops (vendor_fn v id pf mps tag c) in at_id dev f ->
  exists w, cap_read_word (config_read (cfg_deliver ep_read ep_write tg) crs dev) (mkFound (expected v c) []) (CapId 0x05) 2 f = Ok (with_id dev f, w) /\
    2 ^ (w / 2 mod 8) < n.
Proof.
  intros v pf m Hv Hp. exists (if pf =? 2 then 2 else 3). split; [destruct (pf =? 2); lia|]. intros id mps tag ops tg crs dev P CK c f A.
  destruct (host_msi v id pf mps tag c ops tg crs dev P CK A _ eq_refl) as (w & W1 & W2 & _). exists w. split; [exact W1|].
  change (2 ^ 1) with 2 in W2. change (2 ^ 3) with 8 in W2. rewrite W2. destruct Hv as [<-|[<-|[]]], Hp as [<-|[<-|[]]]; reflexivity.
Qed.
(** MSI-X: the table and the pending bit array are where they were configured; the addresses are multiples of 8. *)
Theorem C52_msix : forall v id pf mps tag c ops tg crs dev x, ptr_kept ops -> caps_kept ops ->
  let f := vrun ops (vendor_fn v id pf mps tag c) in at_id dev f -> pf_msix c = Some x ->
  let p := mkFound (expected v c) [] in let cr := config_read (cfg_deliver ep_read ep_write tg) crs dev in
  (exists w, cap_read_word cr p (CapId 0x11) 2 f = Ok (with_id dev f, w) /\ w mod 2 ^ 11 = mx_size x mod 2048) /\
  (exists w, cap_read_dword cr p (CapId 0x11) 4 f = Ok (with_id dev f, w) /\ w mod 2 ^ 3 = mx_bir x mod 8 /\ w / 2 ^ 3 = mx_offset x / 8 mod 2 ^ 29) /\
  (exists w, cap_read_dword cr p (CapId 0x11) 8 f = Ok (with_id dev f, w) /\ w mod 2 ^ 3 = mx_pba_bir x mod 8 /\ w / 2 ^ 3 = mx_pba_offset x / 8 mod 2 ^ 29).
Proof. intros v id pf mps tag c ops tg crs dev x P CK f A. exact (host_msix v id pf mps tag c ops tg crs dev P CK A x). Qed.
(** [setup] takes the function for an endpoint that supports exactly the configured payload size. *)
Theorem C52_payload : forall v id pf mps tag c ops tg crs dev k, ptr_kept ops -> caps_kept ops ->
  let f := vrun ops (vendor_fn v id pf mps tag c) in at_id dev f -> 0 <= k <= 7 -> mps = 128 * 2 ^ k ->
  setup_pcie (config_read (cfg_deliver ep_read ep_write tg) crs dev) (mkFound (expected v c) []) f = Ok (with_id dev f, Some (0, k)).
Proof.
  intros v id pf mps tag c ops tg crs dev k P CK f A K E.
  replace k with (bit_length (mps / 128 - 1) mod 8); [exact (host_pcie v id pf mps tag c ops tg crs dev P CK A)|].
  assert (1 <= 2 ^ k) by (apply (Z.pow_le_mono_r 2 0 k); lia).
  rewrite E, Z.mul_comm, Z.div_mul, bit_length_up, Z.log2_up_pow2 by lia. apply Z.mod_small. lia.
Qed.
(** Extended tags are supported exactly if they were configured. *)
Theorem C52_tags : forall v id pf mps tag c ops tg crs dev, ptr_kept ops -> caps_kept ops ->
  let f := vrun ops (vendor_fn v id pf mps tag c) in at_id dev f ->
  exists w, cap_read_dword (config_read (cfg_deliver ep_read ep_write tg) crs dev) (mkFound (expected v c) []) (CapId 0x10) 4 f = Ok (with_id dev f, w) /\ w / 2 ^ 5 mod 2 = if tag =? 0 then 0 else 1.
Proof.
  intros v id pf mps tag c ops tg crs dev P CK f A. destruct (host_tags v id pf mps tag c ops tg crs dev P CK A) as (w & E & V). exists w. split; [exact E|]. change (2 ^ 1) with 2 in V. rewrite V. unfold zbool. destruct (tag =? 0); reflexivity.
Qed.
Definition ops_host : list vop := [VId (mkId 3 0 1); VWrite 0x24 0xffffffff 0xf; VFn fn_bus_master_enable 1; VWrite 0x2c 0xffffffff 0xf; VId (mkId 5 0 1)].
Definition fixed (v : vendor) (c : pf_cfg) : fnc := vrun ops_host (vendor_fn v (mkId 0 0 1) 1 512 1 c).
Definition rd0 := config_read (cfg_deliver ep_read ep_write (fun _ => 7)) None (mkId 5 0 1).
Definition value (x : res (fnc * Z)) : option Z := match x with Ok (_, w) => Some w | Err _ => None end.
Example C52_caps_ex : ptr_kept ops_host /\ caps_kept ops_host /\
  value (cap_read_word rd0 (mkFound (expected VUs cfg0) []) (CapId 0x05) 2 (fixed VUs cfg0)) = Some 0xf7 /\
  value (cap_read_word rd0 (mkFound (expected VUs cfg0) []) (CapId 0x11) 2 (fixed VUs cfg0)) = Some 0xc01f /\
  value (cap_read_dword rd0 (mkFound (expected VUs cfg0) []) (CapId 0x11) 4 (fixed VUs cfg0)) = Some 0x1002 /\
  value (cap_read_dword rd0 (mkFound (expected VUs cfg0) []) (CapId 0x11) 8 (fixed VUs cfg0)) = Some 0x2003 /\
  match setup_pcie rd0 (mkFound (expected VUs cfg0) []) (fixed VUs cfg0) with Ok (_, x) => x = Some (0, 2) | Err _ => False end.
Proof.
  split; [intros x H; repeat (destruct H as [H|H]; [discriminate H|]); destruct H|].
  split; [intros i a x H; repeat (destruct H as [H|H]; [discriminate H|]); destruct H|]. vm_compute. repeat split.
Qed.

Print Assumptions C52_walk_partial.
Print Assumptions C52_extended_refuted.
Print Assumptions C52_msi_partial.
Print Assumptions C52_msi_refuted.
Print Assumptions C52_msix.
Print Assumptions C52_payload.
Print Assumptions C52_tags.
