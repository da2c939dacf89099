(** C58: link settings of the device models, and the connection of two ports. *)
From Coq Require Import QArith Qround.
From Verif Require Import Base BaseProofs ModelUtils ModelTlp ModelAttrs ModelCaps ModelCapList ModelConfig ModelFunction ModelHost ModelPci ModelPciCaps
  ModelVendorFn ModelLink SpecConfig SpecRegs SpecCapFn SpecCapList SpecHost SpecPciCaps ProofsHost ProofsCapWalk ProofsPciCaps SpecVendorFn SpecLink ProofsVendorFn ProofsLinkTable ProofsLink ProofsLinkPort ProofsLinkRegs.
Open Scope Z_scope.

Definition plain : straddle := mkSt Dword false false false false false.
(** What a constructor accepts is allowed, keeps what the user asked for, and there is no better choice for what the user left open. *)
Theorem C58_settings : forall v port dw s a g w q, link_setup v port dw s a = Ok (g, w, q) ->
  exists f, Qeq q (inject_Z f) /\ allowed v port dw g w f /\ asked a g w f /\
    forall g' w' f', allowed v port dw g' w' f' -> asked a g' w' f' -> no_better g w f g' w' f'.
Proof.
  intros v port dw s a g w q H. destruct (setup_ok _ _ _ _ _ _ _ _ H) as (f & E & I0 & P & A & _ & M). exists f.
  split; [exact E|]. split; [exact (table_allowed v port g w dw f I0 P)|]. split; [exact A|].
  intros g' w' f' A1 A2. destruct (allowed_table _ _ _ _ _ _ A1) as (T1 & T2). exact (M g' w' f' T1 T2 A2).
Qed.
(** If the settings can be completed, a constructor completes them; not so on ports 1 to 3 of a P-tile without a link width. *)
Theorem C58_completes_partial : forall v port dw a g w f, v <> VPtile \/ port <= 0 \/ a_width a <> None ->
  allowed v port dw g w f -> asked a g w f -> exists r, link_setup v port dw plain a = Ok r.
Proof.
  intros v port dw a g w f C A1 A2. destruct (allowed_table _ _ _ _ _ _ A1) as (T1 & T2).
  apply (setup_complete v port dw plain a g w f C); [|exact T1|exact T2|exact A2]. destruct v; unfold check_straddle; cbn; try reflexivity; destruct (dw <? 256); try reflexivity.
  destruct (dw =? 512); reflexivity.
Qed.
(** Full statement refuted: the lanes of the port are looked at when the width is given and needs no choice (ptile_model.py:575), so that
    x16 is chosen for port 1 and then refused. *)
Theorem C58_completes_refuted : exists v port dw a g w f, allowed v port dw g w f /\ asked a g w f /\ link_setup v port dw plain a = Err AssertError.
Proof.
  exists VPtile, 1, 512, (mkArgs None None None), 4, 8, 250000000. split; [|split].
  - apply (table_allowed VPtile); [cbn; repeat (first [left; reflexivity|right])|reflexivity].
  - repeat split; intros; discriminate.
  - vm_compute. reflexivity.
Qed.
Example C58_settings_ex :
  (exists q, link_setup VUs 0 64 plain (mkArgs (Some 1) None (Some (125 # 2))) = Ok (1, 2, q) /\ Qeq q (inject_Z 62500000)) /\
  link_setup VUsp 0 512 plain (mkArgs None None None) = Ok (4, 8, inject_Z 250000000) /\
  link_setup VS10 0 256 plain (mkArgs (Some 3) (Some 4) (Some (inject_Z 250))) = Err AssertError /\
  link_setup VPtile 1 512 plain (mkArgs None (Some 8) None) = Ok (4, 8, inject_Z 250000000).
Proof.
  split; [eexists; split; [vm_compute; reflexivity|vm_compute; reflexivity]|]. repeat split; vm_compute; reflexivity.
Qed.

(** The interface of the UltraScale and Stratix 10 models carries the data of the link. *)
Theorem C58_bandwidth_partial : forall v port dw s a g w q, v <> VPtile -> link_setup v port dw s a = Ok (g, w, q) ->
  exists f, Qeq q (inject_Z f) /\ carries g w dw f.
Proof.
  intros v port dw s a g w q V H. destruct (C58_settings _ _ _ _ _ _ _ _ H) as (f & E & A & _). exists f. split; [exact E|].
  destruct v; cbn [allowed] in A; [| | |congruence].
  - destruct A as (_ & _ & _ & (A & _) & _). exact A.
  - destruct A as (_ & _ & _ & (A & _) & _). exact A.
  - destruct A as (_ & _ & A & _). exact A.
Qed.
(** P-tile: settings are accepted whose interface is slower than the link. *)
Theorem C58_bandwidth_refuted : exists port dw a g w f, link_setup VPtile port dw plain a = Ok (g, w, inject_Z f) /\ ~ carries g w dw f.
Proof.
  exists 0, 256, (mkArgs (Some 3) (Some 16) (Some (inject_Z 250000000))), 3, 16, 250000000. split; [vm_compute; reflexivity|].
  rewrite <- carries_b. discriminate.
Qed.
(** The period of the user clock is that of the frequency. *)
Theorem C58_clock_partial : forall v port dw s a g w q, v <> VPtile -> link_setup v port dw s a = Ok (g, w, q) ->
  Qeq (Qmult (inject_Z (clock_ns q)) q) (inject_Z 1000000000).
Proof. exact clock_exact. Qed.
(** P-tile: 350, 400 and 450 MHz clocks run at 500 MHz, 175 at 200 and 225 at 250. *)
Theorem C58_clock_refuted : exists port dw a g w q, link_setup VPtile port dw plain a = Ok (g, w, q) /\
  Qeq q (inject_Z 350000000) /\ Qeq (Qmult (inject_Z (clock_ns q)) (inject_Z 500000000)) (inject_Z 1000000000).
Proof.
  exists 0, 128, (mkArgs (Some 4) (Some 4) (Some (inject_Z 350))), 4, 4, (inject_Z 350000000).
  split; [vm_compute; reflexivity|]. split; [reflexivity|vm_compute; reflexivity].
Qed.
(** Straddling: options that are not allowed are refused, others accepted. *)
Theorem C58_straddle_partial : forall v dw s, v = VUs \/ v = VUsp /\ dw <> 256 -> In dw (dw_set v) -> check_straddle v dw s = Ok tt <-> straddle_allowed v dw s.
Proof.
  intros v dw s [->|[-> N]] D; [apply straddle_us|]. split; [intros H; exact (straddle_usp dw s H N D)|apply straddle_usp_allows].
Qed.
(** UltraScale+, 256 bits: the 512-bit options are accepted, as their assertions are nested in those for less than 256 bits
    (usp_model.py:759-765). *)
Theorem C58_straddle_refuted : exists s r, ~ straddle_allowed VUsp 256 s /\ link_setup VUsp 0 256 s (mkArgs None None None) = Ok r.
Proof.
  exists (mkSt Dword true true true true true), (4, 4, inject_Z 250000000). split; [|vm_compute; reflexivity].
  intros (_ & _ & H). destruct (H eq_refl) as (C & _). specialize (C eq_refl). discriminate C.
Qed.
Example C58_straddle_ex : straddle_allowed VUsp 512 (mkSt Dword true true true true true) /\ straddle_allowed VUs 256 (mkSt Dword false false false true false) /\
  check_straddle VUs 128 (mkSt Dword false false false true false) = Err AssertError.
Proof. split; [|split]; [repeat split; intros; lia|repeat split; intros; try lia; try discriminate|reflexivity]. Qed.

(** ** Connection *)
(** Both ends agree on speed, width and delay: no more than either supports, no less than both do; a byte takes 8 bit times of the lanes;
    nothing else changes. *)
Theorem C58_connect : forall ts i j h, i <> j -> p_other (h i) = None -> p_other (h j) = None -> port_ok (h i) -> port_ok (h j) ->
  exists h', connect ts i j h = (h', Ok tt) /\ (forall k, k <> i -> k <> j -> h' k = h k) /\ p_other (h' i) = Some j /\ p_other (h' j) = Some i /\
    agreed (p_max_speed (h i)) (p_max_speed (h j)) (p_cur_speed (h' i)) /\ p_cur_speed (h' j) = p_cur_speed (h' i) /\
    agreed (p_max_width (h i)) (p_max_width (h j)) (p_cur_width (h' i)) /\ p_cur_width (h' j) = p_cur_width (h' i) /\
    p_link_delay (h' j) = p_link_delay (h' i) /\
    forall g w k n, p_cur_speed (h' i) = Some g -> p_cur_width (h' i) = Some w -> k = i \/ k = j -> 0 <= n -> 0 <= ts ->
      let exact := Qdiv (inject_Z (8 * n * ts)) (Qmult (lane_rate g) (inject_Z w)) in
      let t := tx_steps ts (h' k) n in (t = 1 \/ Qle (inject_Z t) exact) /\ Qlt exact (inject_Z (t + 1)).
Proof.
  intros ts i j h N Oi Oj Pi Pj. destruct (connect_ok ts i j h N Oi Oj Pi Pj) as (h' & C1 & C2 & C3 & C4 & C5 & C6 & C7 & C8 & C9 & C10).
  exists h'. repeat (split; [assumption|]). intros g w k n G W K Nn T exact0 t. destruct (C10 k K) as (_ & Q). rewrite G, W in Q.
  destruct Q as (_ & W1 & r & R1 & R2 & R3 & _). unfold t, tx_steps. rewrite R3.
  pose proof (symbol_time r w n ts W1 R2) as E. rewrite R1 in E at 2. fold exact0 in E.
  assert (NN : Qle (inject_Z 0) exact0).
  { unfold exact0. rewrite <- R1. apply Qle_shift_div_l.
    - change (inject_Z 0) with 0%Q in *. rewrite <- (Qmult_0_l (inject_Z w)). apply Qmult_lt_compat_r; [|exact R2]. change 0%Q with (inject_Z 0). rewrite <- Zlt_Qlt. lia.
    - change (inject_Z 0) with 0%Q. rewrite Qmult_0_l. change 0%Q with (inject_Z 0). rewrite <- Zle_Qle. nia. }
  rewrite (qtrunc_comp _ _ E). exact (steps_bounds exact0 NN).
Qed.
(** An end that is not restricted - by 0, or by nothing - takes what the other one has. *)
Theorem C58_negotiate : forall a b, (forall x, a = Some x -> 0 <= x) -> (forall x, b = Some x -> 0 <= x) -> agreed a b (negotiate a b).
Proof. exact negotiate_agreed. Qed.
Example C58_negotiate_ex : negotiate (Some 8) (Some 0) = Some 8 /\ negotiate None (Some 4) = Some 4 /\ negotiate (Some 0) (Some 3) = Some 3 /\ negotiate (Some 8) (Some 4) = Some 4.
Proof. repeat split. Qed.
(** A port has one other end: a second connection is refused and changes nothing. *)
Theorem C58_connected : forall ts i j h, i <> j -> p_other (h i) <> None \/ p_other (h j) <> None -> connect ts i j h = (h, Err PyException).
Proof. exact connect_refused. Qed.
(** A device model on a port without restrictions: the link runs with its settings. *)
Theorem C58_model_link : forall ts i j h v port dw s a g w q, i <> j -> p_other (h i) = None -> p_other (h j) = None -> link_setup v port dw s a = Ok (g, w, q) ->
  p_max_speed (h i) = Some g -> p_max_width (h i) = Some w -> p_max_speed (h j) = None -> p_max_width (h j) = None ->
  forall k, k = i \/ k = j -> let h' := fst (connect ts i j h) in p_cur_speed (h' k) = Some g /\ p_cur_width (h' k) = Some w.
Proof.
  intros ts i j h v port dw s a g w q N Oi Oj H Gi Wi Gj Wj k K. destruct (setup_ok _ _ _ _ _ _ _ _ H) as (f & _ & I0 & _).
  assert (R : 1 <= g <= 5 /\ 1 <= w).
  { clear -I0. assert (T : forallb (fun '(g, w, d, f) => (1 <=? g) && (g <=? 5) && (1 <=? w)) (valid_configs v) = true) by (destruct v; vm_compute; reflexivity).
    rewrite forallb_forall in T. specialize (T _ I0). cbn beta iota in T. lia. }
  destruct (connect_ok ts i j h N Oi Oj) as (h' & -> & _ & _ & _ & A1 & E1 & A2 & E2 & _).
  - split; intros x X; [rewrite Gi in X|rewrite Wi in X]; injection X as <-; lia.
  - split; intros x X; [rewrite Gj in X|rewrite Wj in X]; discriminate X.
  - cbn [fst]. rewrite Gi, Gj in A1. rewrite Wi, Wj in A2. destruct A1 as (A1 & B1), A2 as (A2 & B2).
    assert (G' : p_cur_speed (h' i) = Some g).
    { assert (NZ : g <> 0) by lia. destruct (A1 g (or_introl (conj eq_refl NZ))) as (z & Z1 & Z2). assert (Z0 : z <> 0) by lia. destruct (B1 z Z1 Z0) as [[E _]|[E _]]; congruence. }
    assert (W' : p_cur_width (h' i) = Some w).
    { assert (NZ : w <> 0) by lia. destruct (A2 w (or_introl (conj eq_refl NZ))) as (z & Z1 & Z2). assert (Z0 : z <> 0) by lia. destruct (B2 z Z1 Z0) as [[E _]|[E _]]; congruence. }
    destruct K as [->| ->]; [split; assumption|]. rewrite E1, E2. split; assumption.
Qed.
(** Maximum time between updates of flow control and between acknowledgements: what the specification tabulates, in steps. *)
Theorem C58_latency : forall ts i j h mps row k e g w, i <> j -> p_other (h i) = None -> p_other (h j) = None -> port_ok (h i) -> port_ok (h j) ->
  let h' := fst (connect ts i j h) in p_payload (h i) = mps -> In (mps, row) latency_table -> nth_error latency_widths k = Some w -> nth_error row k = Some e ->
  p_cur_speed (h' i) = Some g -> p_cur_width (h' i) = Some w -> 0 <= ts ->
  exists l, Qfloor l = e + latency_more g /\ let exact := Qdiv (Qmult l (inject_Z (8 * ts))) (lane_rate g) in
    Qle (inject_Z (p_latency (h' i))) exact /\ Qlt exact (inject_Z (p_latency (h' i) + 1)).
Proof.
  intros ts i j h mps row k e g w N Oi Oj Pi Pj h' M R W E. unfold h'. clear h'.
  destruct (connect_ok ts i j h N Oi Oj Pi Pj) as (h' & -> & _ & _ & _ & _ & _ & _ & _ & _ & C). cbn [fst]. intros G W' T.
  destruct (C i (or_introl eq_refl)) as (_ & Q). rewrite G, W', M in Q. destruct Q as (G1 & W1 & r & R1 & R2 & _ & ->).
  exists (max_update_latency mps w g). split; [exact (latency_entry mps row k w e g R W E G1)|]. cbv zeta.
  rewrite <- R1. set (l := max_update_latency mps w g).
  assert (L0 : Qle (inject_Z 0) l) by (apply (latency_nonneg mps row); [exact R|exact W1]).
  assert (EQ : Qeq (Qmult (Qdiv (Qmult l (inject_Z 8)) r) (inject_Z ts)) (Qdiv (Qmult l (inject_Z (8 * ts))) r)) by (apply latency_steps; exact R2).
  rewrite (qtrunc_comp _ _ EQ). rewrite qtrunc_nonneg; [apply floor_bounds|]. apply latency_pos; assumption.
Qed.
Definition model_port (g w : Z) : sport := mkPort None (Some g) (Some w) None None 128 (5 # 1000000000) (inject_Z 0) 0 0.
Definition ports0 : nat -> sport := fun i => if Nat.eqb i 1 then model_port 3 16 else if Nat.eqb i 2 then model_port 4 8 else new_port.
Example C58_connect_ex : port_ok (ports0 1) /\ port_ok (ports0 2) /\ port_ok (ports0 0) /\
  let h' := fst (connect 1000000000000 1 2 ports0) in
  p_cur_speed (h' 2%nat) = Some 3 /\ p_cur_width (h' 1%nat) = Some 8 /\ tx_steps 1000000000000 (h' 1%nat) 160 = 20312 /\ p_latency (h' 1%nat) = 166308 /\
  p_link_delay (h' 2%nat) = 10000 /\ snd (connect 1000000000000 1 0 h') = Err PyException.
Proof.
  split; [|split; [|split]].
  - split; intros x H; cbn in H; injection H as <-; lia.
  - split; intros x H; cbn in H; injection H as <-; lia.
  - split; intros x H; discriminate H.
  - vm_compute. repeat split; reflexivity.
Qed.
(** The link status register of the functions shows neither: nothing ever sets its fields. *)
Theorem C58_status_refuted : forall v port dw s a g w q id pf mps tag c ops tg crs dev, link_setup v port dw s a = Ok (g, w, q) -> ptr_kept ops -> caps_kept ops ->
  let f := vrun ops (vendor_fn v id pf mps tag c) in at_id dev f ->
  exists x, cap_read_word (config_read (cfg_deliver ep_read ep_write tg) crs dev) (mkFound (expected v c) []) (CapId 0x10) 0x12 f = Ok (with_id dev f, x) /\
    x mod 2 ^ 4 <> g /\ x / 2 ^ 4 mod 2 ^ 6 <> w.
Proof.
  intros v port dw s a g w q id pf mps tag c ops tg crs dev H P C f A. destruct (setup_ok _ _ _ _ _ _ _ _ H) as (fr & _ & I0 & _).
  destruct (in_sets _ _ _ _ _ I0) as (_ & _ & _ & _ & G & W & _). destruct (host_link v id pf mps tag c ops tg crs dev P C A) as (x & X1 & X2 & X3).
  exists x. split; [exact X1|]. rewrite X2, X3. split; congruence.
Qed.

Print Assumptions C58_settings.
Print Assumptions C58_completes_partial.
Print Assumptions C58_completes_refuted.
Print Assumptions C58_bandwidth_partial.
Print Assumptions C58_bandwidth_refuted.
Print Assumptions C58_clock_partial.
Print Assumptions C58_clock_refuted.
Print Assumptions C58_straddle_partial.
Print Assumptions C58_straddle_refuted.
Print Assumptions C58_connect.
Print Assumptions C58_negotiate.
Print Assumptions C58_connected.
Print Assumptions C58_model_link.
Print Assumptions C58_latency.
Print Assumptions C58_status_refuted.
