(** The capabilities that the host finds (C51). *)
From Coq Require Import Sorting.Sorted.
From Verif Require Import Base ModelUtils ModelTlp ModelAttrs ModelCaps ModelCapList ModelConfig ModelFunction ModelHost ModelPci ModelPciCaps
  SpecRegs SpecConfig SpecHost SpecCapList SpecCapFn SpecPciCaps ProofsCapWalk ProofsHost ProofsPciCaps PropertiesCapList.

(** The host finds exactly the registered capabilities, with their identifiers and addresses, in order.  Missing from the full
    statement: histories that are not [orderly], for which it is false. *)
Theorem C51_walk_partial : forall rd wr ms tg crs dev f0 ops f fuel, In (rd, wr, ms) cfg_kinds -> history rd wr f0 ops f ->
  at_id dev f -> orderly wr f0 ops f -> (length (f_caps f) < fuel)%nat -> (length (f_ecaps f) < fuel)%nat ->
  walk_capabilities (config_read (cfg_deliver rd wr tg) crs dev) fuel f = Ok (with_id dev f, listing f).
Proof. intros rd wr ms tg crs dev f0 ops f fuel W (_ & F & T & E) A O. exact (walk_orderly _ _ _ tg crs dev f0 ops f W F T E A O fuel). Qed.
(** Registrations without offset, in any number and order, with configuration writes between them: no such restriction, as long as
    the capabilities fit into the space. *)
Theorem C51_walk_auto : forall rd wr ms tg crs dev f0 ops f fuel, In (rd, wr, ms) cfg_kinds -> history rd wr f0 ops f ->
  at_id dev f -> (forall i, 2 <= c_len (f_heap f0 i) /\ headed (f_heap f0 i) /\ c_id (f_heap f0 i) mod 65536 <> 0) ->
  (forall ext, auto_only ext ops) ->
  (forall ext : bool, total (map (fun i => c_len (f_heap f i)) (caps_of ext f)) <= if ext then 960 else 48) ->
  (length (f_caps f) < fuel)%nat -> (length (f_ecaps f) < fuel)%nat ->
  walk_capabilities (config_read (cfg_deliver rd wr tg) crs dev) fuel f = Ok (with_id dev f, listing f).
Proof.
  intros rd wr ms tg crs dev f0 ops f fuel W (_ & F & T & E) A H AO L.
  exact (walk_orderly _ _ _ tg crs dev f0 ops f W F T E A (auto_orderly _ _ _ f0 ops f W F T E H AO L) fuel).
Qed.
Definition found_in (x : res (fnc * found)) : option (pcie_id * found) := match x with Ok (f, p) => Some (f_id f, p) | Err _ => None end.
Example C51_walk_ex : orderly ep_write fn0 ops0 f_ops0 /\ at_id (mkId 5 0 0) f_ops0 /\
  found_in (walk_capabilities (config_read (cfg_deliver ep_read ep_write (fun _ => 7)) None (mkId 5 0 0)) 5 f_ops0) =
    Some (mkId 5 0 0, mkFound [(0x05, 0x40); (0x01, 0x5c); (0x11, 0x64); (0x10, 0x70)] [(0x0001, 0x100); (0x0019, 0x180)]) /\
  listing f_ops0 = mkFound [(0x05, 0x40); (0x01, 0x5c); (0x11, 0x64); (0x10, 0x70)] [(0x0001, 0x100); (0x0019, 0x180)].
Proof.
  split; [|split; [split; vm_compute; reflexivity|vm_compute; split; reflexivity]]. constructor.
  - intros i. apply builtin_headed. do 6 (destruct i as [|i]; [exact Logic.I|]). destruct i; exact Logic.I.
  - intros i. do 6 (destruct i as [|i]; [cbn; lia|]). destruct i; cbn; lia.
  - intros []; reflexivity.
  - intros []; apply fits_alongb_ok; vm_compute; reflexivity.
  - intros i H. vm_compute in H. injection H as <-. vm_compute. reflexivity.
  - intros i H. vm_compute in H. repeat (destruct H as [<-|H]; [vm_compute; split; [discriminate|reflexivity]|]). destruct H.
  - intros i H. vm_compute in H. repeat (destruct H as [<-|H]; [vm_compute; reflexivity|]). destruct H.
Qed.
Example C51_walk_auto_ex : (forall ext, auto_only ext ops1) /\
  (forall ext : bool, total (map (fun i => c_len (f_heap f_ops1 i)) (caps_of ext f_ops1)) <= if ext then 960 else 48) /\
  found_in (walk_capabilities (config_read (cfg_deliver br_read br_write (fun _ => 7)) None (mkId 5 0 0)) 5 f_ops1) =
    Some (mkId 5 0 0, mkFound [(0x10, 0x40); (0x11, 0x7c); (0x01, 0x88); (0x05, 0x90)] [(0x0019, 0x100); (0x0001, 0x110)]).
Proof.
  destruct C25_auto_ex as (_ & A1 & A2 & _). split; [intros []; assumption|]. split; [intros []; vm_compute; discriminate|vm_compute; reflexivity].
Qed.

(** A lookup gives the address of the registered capability with that identifier, the lowest one if there are several, or nothing
    if there is none. *)
Theorem C51_lookup : forall rd wr f0 ops f ext id, history rd wr f0 ops f ->
  match get_capability_offset (key ext id) (listing f) with
  | Some o => exists i, In i (caps_of ext f) /\ cap_ident ext (f_heap f i) = id /\ o = 4 * off (f_heap f i) /\
      forall j, In j (caps_of ext f) -> cap_ident ext (f_heap f j) = id -> off (f_heap f i) <= off (f_heap f j)
  | None => forall i, In i (caps_of ext f) -> cap_ident ext (f_heap f i) <> id
  end.
Proof. intros rd wr f0 ops f ext id (W & F & T & E). exact (found_first _ _ _ _ _ ext id W F T E). Qed.
Example C51_lookup_ex : get_capability_offset (CapId 0x11) (listing f_ops0) = Some 0x64 /\
  get_capability_offset (ExtCapId 0x19) (listing f_ops0) = Some 0x180 /\ get_capability_offset (ExtCapId 0x11) (listing f_ops0) = None.
Proof. vm_compute. auto. Qed.

(** [capability_read] returns the bytes of the registers of the capability that was looked up. *)
Theorem C51_read : forall rd wr ms tg crs dev f0 ops f ext i id addr n, In (rd, wr, ms) cfg_kinds -> history rd wr f0 ops f ->
  at_id dev f -> fits_along ext wr ops f0 -> In i (caps_of ext f) -> 0 < off (f_heap f i) ->
  get_capability_offset (key ext id) (listing f) = Some (4 * off (f_heap f i)) -> 0 <= n -> within_cap ext (f_heap f i) addr n ->
  (forall r, addr / 4 <= r <= (addr + n - 1) / 4 -> exists v, cap_read (f_heap f i) r = Ok (Some v) /\ 0 <= v < 2 ^ 32) ->
  exists d, capability_read (config_read (cfg_deliver rd wr tg) crs dev) (listing f) (key ext id) addr n f = Ok (if n =? 0 then f else with_id dev f, d) /\
    zlen d = n /\ forall j, 0 <= j < n -> cap_byte (f_heap f i) (addr + j) = Some (nth (Z.to_nat j) d 0).
Proof.
  intros rd wr ms tg crs dev f0 ops f ext i id addr n W (SP & F & T & E) A FA Hi.
  exact (cap_access_read rd wr ms tg crs dev f ext i (key ext id) (listing f) addr n W A (ProofsCapFn.caps_disjoint _ _ _ _ _ ext SP F T E FA) Hi).
Qed.
(** [capability_write] consists of writes to registers of that capability, which together enable exactly the bytes of the access,
    each once, in order and with its value; nothing else changes but the bus number that the function is addressed with. *)
Theorem C51_write : forall rd wr ms tg dev f0 ops f ext i id addr d, In (rd, wr, ms) cfg_kinds -> history rd wr f0 ops f ->
  at_id dev f -> fits_along ext wr ops f0 -> In i (caps_of ext f) -> 0 < off (f_heap f i) ->
  get_capability_offset (key ext id) (listing f) = Some (4 * off (f_heap f i)) -> bytes_ok d -> d <> [] ->
  within_cap ext (f_heap f i) addr (zlen d) ->
  exists f' ws, capability_write (config_write (cfg_deliver rd wr tg) dev) (listing f) (key ext id) addr d f = Ok f' /\
    f_attr f' = f_attr f /\ f_caps f' = f_caps f /\ f_ecaps f' = f_ecaps f /\ f_id f' = dev /\
    f_heap f' i = cap_write_all ws (f_heap f i) /\ (forall j, j <> i -> f_heap f' j = f_heap f j) /\
    flat_map lanes ws = map (fun k => (addr + Z.of_nat k, nth k d 0)) (List.seq 0 (length d)) /\ Forall (fun w => lanes w <> []) ws.
Proof.
  intros rd wr ms tg dev f0 ops f ext i id addr d W (SP & F & T & E) A FA Hi.
  exact (cap_access_write rd wr ms tg dev f ext i (key ext id) (listing f) addr d W A (ProofsCapFn.caps_disjoint _ _ _ _ _ ext SP F T E FA) Hi).
Qed.
(** The MSI capability (object 2, at 0x40): its address register, written at an odd address and read back. *)
Definition msi_rw : option (list Z) :=
  match capability_write (config_write (cfg_deliver ep_read ep_write (fun _ => 3)) (mkId 5 0 0)) (listing f_ops0) (CapId 5) 5 [0x12; 0x34; 0x56; 0x78; 0x9a] f_ops0 with
  | Ok f => match capability_read (config_read (cfg_deliver ep_read ep_write (fun _ => 4)) None (mkId 5 0 0)) (listing f_ops0) (CapId 5) 3 8 f with
            | Ok (_, d) => Some d | Err _ => None end
  | Err _ => None
  end.
Example C51_access_ex : In 2%nat (f_caps f_ops0) /\ off (f_heap f_ops0 2%nat) = 0x10 /\ within_cap false (f_heap f_ops0 2%nat) 3 8 /\
  (forall r, 0 <= r <= 2 -> exists v, cap_read (f_heap f_ops0 2%nat) r = Ok (Some v) /\ 0 <= v < 2 ^ 32) /\
  msi_rw = Some [0x00; 0x00; 0x12; 0x34; 0x56; 0x78; 0x9a; 0x00].
Proof.
  split; [vm_compute; auto|]. split; [reflexivity|]. split.
  - intros r H. change (c_len (f_heap f_ops0 2%nat)) with 6. change (off (f_heap f_ops0 2%nat)) with 16. cbv iota. split; lia.
  - split; [|vm_compute; reflexivity]. intros r H. assert (C : r = 0 \/ r = 1 \/ r = 2) by lia.
    destruct C as [->|[->| ->]]; (eexists; split; [vm_compute; reflexivity|cbn; lia]).
Qed.

(** [setup]: a function with a PCI Express capability is recognised as such, with its port type and the payload size it supports; one
    without is not.  This is what enumeration (C32 to C34) starts from. *)
Theorem C51_pcie_partial : forall rd wr ms tg crs dev f0 ops f fuel i, In (rd, wr, ms) cfg_kinds -> history rd wr f0 ops f ->
  at_id dev f -> orderly wr f0 ops f -> (length (f_caps f) < fuel)%nat -> (length (f_ecaps f) < fuel)%nat ->
  In i (f_caps f) -> c_kind (f_heap f i) = KPcie -> c_id (f_heap f i) = 0x10 -> 2 <= c_len (f_heap f i) -> off (f_heap f i) < 63 ->
  (forall j, In j (f_caps f) -> cap_ident false (f_heap f j) = 0x10 -> j = i) ->
  exists p, walk_capabilities (config_read (cfg_deliver rd wr tg) crs dev) fuel f = Ok (with_id dev f, p) /\
    setup_pcie (config_read (cfg_deliver rd wr tg) crs dev) p (with_id dev f) =
    Ok (with_id dev f, Some (c_attr (f_heap f i) pe_pcie_device_type mod 16, c_attr (f_heap f i) pe_max_payload_size_supported mod 8)).
Proof.
  intros rd wr ms tg crs dev f0 ops f fuel i W HI A O F1 F2 Hi K ID L B U. exists (listing f).
  split; [exact (C51_walk_partial rd wr ms tg crs dev f0 ops f fuel W HI A O F1 F2)|]. pose proof (C51_lookup _ _ _ _ _ false 0x10 HI) as LK.
  destruct HI as (SP & F & T & E). pose proof (ProofsCapFn.caps_disjoint _ _ _ _ _ false SP F T E (ord_fits _ _ _ _ O false)) as D.
  destruct (get_capability_offset (key false 16) (listing f)) as [o|] eqn:G.
  - destruct LK as (j & J1 & J2 & J3 & _). assert (j = i) as -> by (apply U; assumption). subst o.
    apply (setup_exp rd wr ms tg crs dev (with_id dev f) (listing f) i); try assumption; [split; reflexivity|].
    pose proof (ord_place _ _ _ _ O i Hi) as X. cbn [with_id f_heap]. lia.
  - exfalso. apply (LK i Hi). unfold cap_ident. rewrite ID. reflexivity.
Qed.
Theorem C51_not_pcie : forall rd wr f0 ops f cr, history rd wr f0 ops f ->
  (forall j, In j (f_caps f) -> cap_ident false (f_heap f j) <> 0x10) -> setup_pcie cr (listing f) f = Ok (f, None).
Proof.
  intros rd wr f0 ops f cr HI U. pose proof (C51_lookup _ _ _ _ _ false 0x10 HI) as LK. unfold setup_pcie.
  change (CapId 16) with (key false 16). destruct (get_capability_offset (key false 16) (listing f)) as [o|]; [|reflexivity].
  destruct LK as (j & J1 & J2 & _). exfalso. exact (U j J1 J2).
Qed.
Example C51_pcie_ex : In 0%nat (f_caps f_ops0) /\ c_kind (f_heap f_ops0 0%nat) = KPcie /\ off (f_heap f_ops0 0%nat) = 0x1c /\
  (forall j, In j (f_caps f_ops0) -> cap_ident false (f_heap f_ops0 j) = 0x10 -> j = 0%nat).
Proof.
  split; [vm_compute; auto|]. split; [reflexivity|]. split; [vm_compute; reflexivity|].
  intros j H. vm_compute in H. repeat (destruct H as [<-|H]; [intros X; first [reflexivity|vm_compute in X; discriminate X]|]). destruct H.
Qed.

(** After a deregistration the host finds a capability that does not exist, or goes round in circles for ever. *)
Theorem C51_phantom_refuted : exists ops f, history ep_read ep_write fn0 ops f /\ fits_along false ep_write ops fn0 /\
  entries false f = [(0x01, 0x80)] /\
  found_in (walk_capabilities (config_read (cfg_deliver ep_read ep_write (fun _ => 7)) None (mkId 5 0 0)) 9 f) =
    Some (mkId 5 0 0, mkFound [(0x01, 0x80); (0x00, 0xc0)] []).
Proof.
  exists [FReg 1 (Some 0x20); FReg 3 (Some 0x30); FDereg 3], (get (frun ep_write [FReg 1 (Some 0x20); FReg 3 (Some 0x30); FDereg 3] fn0)).
  split; [split; [right; left; reflexivity|split; [exact fn0_fresh|split; [|apply get_ok; vm_compute; reflexivity]]]|].
  - intros i o X. cbn in X. repeat (destruct X as [X|X]; [try discriminate X; injection X as <- _; reflexivity|]). destruct X.
  - split; [apply fits_alongb_ok; vm_compute; reflexivity|]. split; vm_compute; reflexivity.
Qed.
Definition ops_loop : list fop := [FReg 1 (Some 0x20); FReg 3 (Some 0x30); FDereg 3; FReg 1 (Some 0x30)].
Definition f_loop : fnc := get (frun ep_write ops_loop fn0).
Theorem C51_loop_refuted : exists ops f, history ep_read ep_write fn0 ops f /\ fits_along false ep_write ops fn0 /\
  entries false f = [(0x01, 0xc0)] /\
  forall tg crs fuel, walk_capabilities (config_read (cfg_deliver ep_read ep_write tg) crs (mkId 5 0 0)) fuel f = Err OutOfFuel.
Proof.
  exists ops_loop, f_loop. split; [split; [right; left; reflexivity|split; [exact fn0_fresh|split; [|apply get_ok; vm_compute; reflexivity]]]|].
  - intros i o X. cbn in X. repeat (destruct X as [X|X]; [try discriminate X; injection X as <- _; reflexivity|]). destruct X.
  - split; [apply fits_alongb_ok; vm_compute; reflexivity|]. split; [vm_compute; reflexivity|]. intros tg crs fuel.
    assert (W : In (ep_read, ep_write, cfg_masks ep_rw ep_w1c (tab [(3, 0x40000000)])) cfg_kinds) by (right; left; reflexivity).
    assert (R0 : ep_read f_loop 13 = Ok (Some 0xc0)) by (vm_compute; reflexivity).
    assert (R1 : ep_read (with_id (mkId 5 0 0) f_loop) 48 = Ok (Some 0x0003c001)) by (vm_compute; reflexivity).
    assert (A0 : at_id (mkId 5 0 0) f_loop) by (split; reflexivity).
    assert (G : forall l, walk_list (config_read (cfg_deliver ep_read ep_write tg) crs (mkId 5 0 0)) fuel 0xc0 l (with_id (mkId 5 0 0) f_loop) = Err OutOfFuel).
    { induction fuel as [|fuel IH]; intros l; [reflexivity|].
      cbn [walk_list]. change (0xc0 >? 0) with true. cbv iota. change 0xc0 with (4 * 48).
      rewrite (read_two _ _ _ tg crs (mkId 5 0 0) W (with_id (mkId 5 0 0) f_loop) 48 0x0003c001 (at_own (mkId 5 0 0) f_loop) R1 ltac:(lia)).
      exact (IH (l ++ [(0x0003c001 mod 256, 0xc0)])). }
    unfold walk_capabilities. change 0x34 with (4 * 13). rewrite (read_one _ _ _ tg crs (mkId 5 0 0) W f_loop 13 0xc0 A0 R0 ltac:(lia)).
    cbn [bind]. change (Z.land (0xc0 mod 256) 0xfc) with 0xc0. rewrite G. reflexivity.
Qed.

Print Assumptions C51_walk_partial.
Print Assumptions C51_walk_auto.
Print Assumptions C51_lookup.
Print Assumptions C51_read.
Print Assumptions C51_write.
Print Assumptions C51_pcie_partial.
Print Assumptions C51_not_pcie.
Print Assumptions C51_phantom_refuted.
Print Assumptions C51_loop_refuted.
