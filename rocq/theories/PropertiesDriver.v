(** Driver functions of the host (C57). *)
From Verif Require Import Base ModelUtils ModelTlp ModelTags ModelAttrs ModelCaps ModelCapList ModelConfig ModelFunction ModelHost ModelPci ModelPciCaps ModelDriver
  SpecRegs SpecConfig SpecHost SpecCapList SpecCapFn SpecPciCaps SpecDriver ProofsCapFn ProofsCapWalk ProofsHost ProofsDriver ProofsDriverTree ProofsDriverHist ProofsDriverCtl PropertiesCapList.

(** ** Enabling functions and bus mastering

    [d0]: every function has been found, none has been enabled. *)
Definition new_tree (nd : nat -> node) (above : nat -> list nat) (d0 : drv (nat -> fnc)) : Prop :=
  (forall k, node_ok (nd k)) /\ tree_ok above /\ placed_ok nd (v_sys d0) /\ forall k, v_cnt d0 k = 0 /\ v_bm d0 k = false.
(** No call fails. *)
Theorem C57_runs : forall nd above d0 ops, new_tree nd above d0 -> Forall op_ok ops -> exists d, drun (tree_read nd) (tree_write nd) above ops d0 = Ok d.
Proof. intros nd above d0 ops (N & T & P & _) F. destruct (runs nd N above T ops d0 F P) as (d & E & _). exists d. exact E. Qed.
(** A function that has been enabled, and every bridge above it, decodes memory and I/O addresses. *)
Theorem C57_decode : forall nd above d0 ops d, new_tree nd above d0 -> Forall op_ok ops -> drun (tree_read nd) (tree_write nd) above ops d0 = Ok d ->
  forall k, In (Enable k) ops -> forall j, j = k \/ In j (above k) -> decodes (command nd (v_sys d) j).
Proof. intros nd above d0 ops d (N & T & P & Z) F E k. exact (hist_open nd N above T d0 ops d P (fun k => proj1 (Z k)) F E k). Qed.
(** Every bridge above it passes requests upstream.  Missing from the full statement: bridges that a driver enables, disables or makes
    bus master itself, for which it is false. *)
Theorem C57_upstream_partial : forall nd above d0 ops d j k, new_tree nd above d0 -> Forall op_ok ops -> drun (tree_read nd) (tree_write nd) above ops d0 = Ok d ->
  Forall (fun o => op_node o <> j) ops -> In (Enable k) ops -> In j (above k) -> Z.testbit (command nd (v_sys d) j) 2 = true.
Proof. intros nd above d0 ops d j k (N & T & P & Z) F E. exact (hist_bridge nd N above T d0 ops d j k P (fun k => proj1 (Z k)) F E). Qed.
(** A function below which nothing is enabled: its enable count, and whether it is bus master, are those of the calls. *)
Theorem C57_count : forall nd above d0 ops d j, new_tree nd above d0 -> Forall op_ok ops -> drun (tree_read nd) (tree_write nd) above ops d0 = Ok d ->
  (forall m, In (Enable m) ops -> ~ In j (above m)) ->
  v_cnt d j = net j 0 ops /\ Z.testbit (command nd (v_sys d) j) 2 = mastering j 0 (Z.testbit (command nd (v_sys d0) j) 2) ops.
Proof.
  intros nd above d0 ops d j (N & T & P & Z) F E H. rewrite <- (proj1 (Z j)). exact (hist_leaf nd N above T j ops d0 d P F E H).
Qed.
(** The attribute [is_busmaster] is only set when the register is. *)
Theorem C57_busmaster : forall nd above d0 ops d j, new_tree nd above d0 -> Forall op_ok ops -> drun (tree_read nd) (tree_write nd) above ops d0 = Ok d ->
  v_bm d j = true -> Z.testbit (command nd (v_sys d) j) 2 = true.
Proof. intros nd above d0 ops d j (N & T & P & Z) F E. exact (hist_flag nd N above T d0 ops d j P (proj2 (Z j)) F E). Qed.
(** Nothing else changes: the other bits of command and status, and, unless the driver writes to it, every other register of every function. *)
Theorem C57_frame : forall nd above d0 ops d j, new_tree nd above d0 -> Forall op_ok ops -> drun (tree_read nd) (tree_write nd) above ops d0 = Ok d ->
  (forall i, 3 <= i -> Z.testbit (command nd (v_sys d) j) i = Z.testbit (command nd (v_sys d0) j) i) /\
  (existsb is_config ops = false -> forall ms, In (n_rd (nd j), n_wr (nd j), ms) cfg_kinds -> others_kept (n_rd (nd j)) ms 1 (v_sys d0 j) (v_sys d j)).
Proof. intros nd above d0 ops d j (N & T & P & Z) F E. exact (hist_frame nd N above T d0 ops d j P F E). Qed.

(** A root port 0, a switch with the ports 1 and 2 and an endpoint 3 below it. *)
Definition nd0 (k : nat) : node :=
  match k with
  | 3%nat => mkNode ep_read ep_write (fun _ => 7) None (mkId 3 0 0)
  | _ => mkNode br_read br_write (fun _ => 7) None (mkId (Z.of_nat k) 0 0)
  end.
Definition above0 (k : nat) : list nat := match k with 1%nat => [0]%nat | 2%nat => [1; 0]%nat | 3%nat => [2; 1; 0]%nat | _ => [] end.
Definition sys0 (k : nat) : fnc := if Nat.eqb k 3 then fn0 else mkFn bridge_init (fun i => pm_cap_new) [] [] (mkId (Z.of_nat k) 0 0).
Definition tree0 : drv (nat -> fnc) := mkDrv (fun _ => 0) (fun _ => false) sys0.
Definition commands (r : res (drv (nat -> fnc))) : option (list (Z * Z * bool)) :=
  match r with Ok d => Some (map (fun k => (command nd0 (v_sys d) k, v_cnt d k, v_bm d k)) [0; 1; 2; 3]%nat) | Err _ => None end.
Lemma tree0_new : new_tree nd0 above0 tree0.
Proof.
  split; [|split; [|split; [|split; reflexivity]]].
  - intros k. destruct k as [|[|[|[|k]]]]; eexists; cbn; eauto.
  - intros k p l E. destruct k as [|[|[|[|k]]]]; cbn in E; try discriminate E; injection E as <- <-; reflexivity.
  - intros k. destruct k as [|[|[|[|k]]]]; split; reflexivity.
Qed.
Definition calls0 : list dop := [Enable 3; Master true 3; Enable 3; Config 3 0x3c [5]; Disable 3].
Example C57_tree_ex : Forall op_ok calls0 /\
  commands (Ok tree0) = Some [(0x100000, 0, false); (0x100000, 0, false); (0x100000, 0, false); (0x100000, 0, false)] /\
  commands (drun (tree_read nd0) (tree_write nd0) above0 calls0 tree0) = Some [(0x100007, 1, true); (0x100007, 1, true); (0x100007, 1, true); (0x100007, 1, true)] /\
  commands (drun (tree_read nd0) (tree_write nd0) above0 (calls0 ++ [Disable 3]) tree0) = Some [(0x100007, 1, true); (0x100007, 1, true); (0x100007, 1, true); (0x100003, 0, false)] /\
  net 3 0 calls0 = 1 /\ mastering 3 0 false calls0 = true /\ mastering 3 0 false (calls0 ++ [Disable 3]) = false.
Proof. split; [repeat constructor; try lia; right; lia|vm_compute; repeat split]. Qed.
(** A bridge that was enabled by itself stays without bus mastering when a function below it is enabled: line 546 calls [set_master]
    without waiting for it. *)
Theorem C57_upstream_refuted : exists nd above d0 ops d j k, new_tree nd above d0 /\ Forall op_ok ops /\ drun (tree_read nd) (tree_write nd) above ops d0 = Ok d /\
  In (Enable k) ops /\ In j (above k) /\ ops = [Enable j; Enable k] /\ Z.testbit (command nd (v_sys d) j) 2 = false.
Proof.
  destruct (C57_runs nd0 above0 tree0 [Enable 2; Enable 3] tree0_new ltac:(repeat constructor)) as (d & E).
  exists nd0, above0, tree0, [Enable 2; Enable 3], d, 2%nat, 3%nat. split; [exact tree0_new|]. split; [repeat constructor|]. split; [exact E|].
  split; [right; left; reflexivity|]. split; [left; reflexivity|]. split; [reflexivity|].
  assert (C : commands (drun (tree_read nd0) (tree_write nd0) above0 [Enable 2; Enable 3] tree0) = Some [(0x100007, 1, true); (0x100007, 1, true); (0x100003, 1, false); (0x100003, 1, false)])
    by (vm_compute; reflexivity).
  rewrite E in C. cbn [commands map] in C. injection C as _ _ _ _ _ _ C _ _ _ _ _. rewrite C. reflexivity.
Qed.
(** A function that is disabled more often than enabled is not enabled by the next call: the count is negative, and the function is
    enabled although [is_enabled] says it is not. *)
Theorem C57_count_refuted : exists nd above d0 ops d k, new_tree nd above d0 /\ Forall op_ok ops /\ drun (tree_read nd) (tree_write nd) above ops d0 = Ok d /\
  ops = [Disable k; Enable k] /\ decodes (command nd (v_sys d) k) /\ is_enabled k d = false.
Proof.
  assert (F : Forall op_ok [Disable 3; Enable 3]) by (repeat constructor). destruct (C57_runs nd0 above0 tree0 [Disable 3; Enable 3] tree0_new F) as (d & E).
  exists nd0, above0, tree0, [Disable 3; Enable 3], d, 3%nat. split; [exact tree0_new|]. split; [exact F|]. split; [exact E|]. split; [reflexivity|].
  split; [exact (C57_decode _ _ _ _ _ tree0_new F E 3%nat (or_intror (or_introl eq_refl)) 3%nat (or_introl eq_refl))|].
  unfold is_enabled. destruct (C57_count _ _ _ _ _ 3%nat tree0_new F E) as [-> _]; [|reflexivity].
  intros m [H|[H|[]]]; [discriminate H|]. injection H as <-. cbn. intros X. repeat (destruct X as [X|X]; [discriminate X|]). exact X.
Qed.

(** ** Device control

    The PCI Express capability that the host has found in [f]. *)
Definition has_pcie rd wr f0 ops f i : Prop :=
  history rd wr f0 ops f /\ fits_along false wr ops f0 /\ In i (f_caps f) /\ 16 <= off (f_heap f i) /\ off (f_heap f i) + c_len (f_heap f i) <= 64 /\
  c_kind (f_heap f i) = KPcie /\ 9 <= c_len (f_heap f i) /\ get_capability_offset EXP (listing f) = Some (4 * off (f_heap f i)).
Lemma has_exp rd wr f0 ops f i : has_pcie rd wr f0 ops f i -> exp_at (listing f) f i /\ 9 <= c_len (f_heap f i).
Proof.
  intros ((SP & F & T & E) & FA & I0 & O1 & O2 & K & L & G). split; [|exact L]. constructor; try assumption.
  exact (ProofsCapFn.caps_disjoint _ _ _ _ _ false SP F T E FA).
Qed.
(** The functions set the field, keep the rest of device control and every other register, and the value reads back.  What they do with
    device status is in [status_after]: its error bits are cleared. *)
Theorem C57_readrq_partial : forall rd wr ms tg crs dev f0 ops f i x, In (rd, wr, ms) cfg_kinds -> has_pcie rd wr f0 ops f i -> at_id dev f ->
  if (0 <=? x) && (x <=? 5) then
    exists v f', rd f (off (f_heap f i) + 2) = Ok (Some v) /\
      write_readrq (config_read (cfg_deliver rd wr tg) crs dev) (config_write (cfg_deliver rd wr tg) dev) (listing f) x f = Ok f' /\
      rd f' (off (f_heap f i) + 2) = Ok (Some (with_field 12 3 x (v mod 65536) + status_after (negb ((v / 4096) mod 8 =? x)) (v / 65536) * 65536)) /\
      others_kept rd ms (off (f_heap f i) + 2) f f' /\
      forall tg' crs', read_readrq (config_read (cfg_deliver rd wr tg') crs' dev) (listing f) f' = Ok (f', x)
  else write_readrq (config_read (cfg_deliver rd wr tg) crs dev) (config_write (cfg_deliver rd wr tg) dev) (listing f) x f = Err ValueError.
Proof.
  intros rd wr ms tg crs dev f0 ops f i x W H A. destruct (has_exp _ _ _ _ _ _ H) as [X L]. destruct ((0 <=? x) && (x <=? 5)) eqn:B.
  - destruct (readrq_ok rd wr ms tg crs dev W (listing f) x f i A X ltac:(lia) ltac:(lia)) as (v & f' & R & V & E & ID & K & R').
    exists v, f'. split; [exact R|]. split; [exact E|]. split; [exact R'|]. split; [exact K|]. intros tg' crs'. pose proof (e_off _ _ _ X) as OF.
    refine (eq_trans (field_back rd wr ms tg' crs' dev W (listing f) 12 3 x (off (f_heap f i)) (v mod 65536) f' _ (e_found _ _ _ X) _ _ _ _ _ _ (ex_intro _ _ (conj _ R'))) _);
      try lia; [unfold at_id; rewrite ID; split; reflexivity|apply status_range; lia|].
    do 2 f_equal. rewrite <- ID. destruct f'. reflexivity.
  - unfold write_readrq. replace ((x <? 0) || (x >? 5)) with true by lia. reflexivity.
Qed.
Theorem C57_mps_partial : forall rd wr ms tg crs dev f0 ops f i mpss x, In (rd, wr, ms) cfg_kinds -> has_pcie rd wr f0 ops f i -> at_id dev f ->
  if (0 <=? x) && (x <=? 5) && (x <=? mpss) then
    exists v f', rd f (off (f_heap f i) + 2) = Ok (Some v) /\
      write_mps (config_read (cfg_deliver rd wr tg) crs dev) (config_write (cfg_deliver rd wr tg) dev) (listing f) mpss x f = Ok f' /\
      rd f' (off (f_heap f i) + 2) = Ok (Some (with_field 5 3 x (v mod 65536) + status_after (negb ((v / 32) mod 8 =? x)) (v / 65536) * 65536)) /\
      others_kept rd ms (off (f_heap f i) + 2) f f' /\
      forall tg' crs', read_mps (config_read (cfg_deliver rd wr tg') crs' dev) (listing f) f' = Ok (f', x)
  else write_mps (config_read (cfg_deliver rd wr tg) crs dev) (config_write (cfg_deliver rd wr tg) dev) (listing f) mpss x f = Err ValueError.
Proof.
  intros rd wr ms tg crs dev f0 ops f i mpss x W H A. destruct (has_exp _ _ _ _ _ _ H) as [X L]. destruct ((0 <=? x) && (x <=? 5) && (x <=? mpss)) eqn:B.
  - destruct (mps_ok rd wr ms tg crs dev W (listing f) mpss x f i A X ltac:(lia) ltac:(lia) ltac:(lia)) as (v & f' & R & V & E & ID & K & R').
    exists v, f'. split; [exact R|]. split; [exact E|]. split; [exact R'|]. split; [exact K|]. intros tg' crs'. pose proof (e_off _ _ _ X) as OF.
    refine (eq_trans (field_back rd wr ms tg' crs' dev W (listing f) 5 3 x (off (f_heap f i)) (v mod 65536) f' _ (e_found _ _ _ X) _ _ _ _ _ _ (ex_intro _ _ (conj _ R'))) _);
      try lia; [unfold at_id; rewrite ID; split; reflexivity|apply status_range; lia|].
    do 2 f_equal. rewrite <- ID. destruct f'. reflexivity.
  - unfold write_mps. replace ((x <? 0) || (x >? 5) || (x >? mpss)) with true by lia. reflexivity.
Qed.
(** Extended tags are enabled when device capabilities say that the function has them. *)
Theorem C57_tags_partial : forall rd wr ms tg crs dev f0 ops f i devcap, In (rd, wr, ms) cfg_kinds -> has_pcie rd wr f0 ops f i -> at_id dev f -> 0 <= devcap ->
  exists v f', rd f (off (f_heap f i) + 2) = Ok (Some v) /\
    configure_extended_tags (config_read (cfg_deliver rd wr tg) crs dev) (config_write (cfg_deliver rd wr tg) dev) (listing f) devcap f = Ok f' /\
    rd f' (off (f_heap f i) + 2) = Ok (Some (if Z.testbit devcap 5 then with_field 8 1 1 (v mod 65536) + status_after (negb (Z.testbit v 8)) (v / 65536) * 65536 else v)) /\
    others_kept rd ms (off (f_heap f i) + 2) f f'.
Proof.
  intros rd wr ms tg crs dev f0 ops f i devcap W H A D. destruct (has_exp _ _ _ _ _ _ H) as [X L].
  destruct (tags_ok rd wr ms tg crs dev W (listing f) devcap f i A X ltac:(lia) D) as (v & f' & R & V & E & _ & K & R'). exists v, f'. auto.
Qed.
(** Software visibility of CRS is enabled exactly when root capabilities offer it. *)
Theorem C57_crs : forall rd wr ms tg crs dev f0 ops f i, In (rd, wr, ms) cfg_kinds -> has_pcie rd wr f0 ops f i -> at_id dev f ->
  exists v f', rd f (off (f_heap f i) + 7) = Ok (Some v) /\
    enable_crs (config_read (cfg_deliver rd wr tg) crs dev) (config_write (cfg_deliver rd wr tg) dev) (listing f) f = Ok f' /\
    rd f' (off (f_heap f i) + 7) = Ok (Some (if Z.testbit v 16 then with_field 4 1 1 v else v)) /\ others_kept rd ms (off (f_heap f i) + 7) f f'.
Proof.
  intros rd wr ms tg crs dev f0 ops f i W H A. destruct (has_exp _ _ _ _ _ _ H) as [X L].
  destruct (crs_ok rd wr ms tg crs dev W (listing f) f i A X L) as (v & f' & R & V & E & _ & K & R'). exists v, f'. auto.
Qed.
(** The system error bit of a bridge's control register. *)
Theorem C57_serr : forall tg crs dev f, at_id dev f -> exists v f', br_read f 15 = Ok (Some v) /\
  configure_serr (config_read (cfg_deliver br_read br_write tg) crs dev) (config_write (cfg_deliver br_read br_write tg) dev) 1 f = Ok f' /\
  br_read f' 15 = Ok (Some (with_field 17 1 1 v)) /\ others_kept br_read (cfg_masks br_rw br_w1c (SpecRegs.tab [(3, 0x40000000)])) 15 f f'.
Proof. intros tg crs dev f A. destruct (serr_ok tg crs dev f A) as (v & f' & R & E & _ & K & R'). exists v, f'. auto. Qed.

Lemma f_ops0_pcie : has_pcie ep_read ep_write fn0 ops0 f_ops0 0.
Proof.
  split; [exact fn0_history|]. split; [exact (proj1 C25_disjoint_ex)|]. split; [vm_compute; auto|]. repeat split; try (vm_compute; discriminate); vm_compute; reflexivity.
Qed.
Definition ep_cr := config_read (cfg_deliver ep_read ep_write (fun _ => 7)) None (mkId 3 0 0).
Definition ep_cw := config_write (cfg_deliver ep_read ep_write (fun _ => 7)) (mkId 3 0 0).
Definition reg_of (r : res fnc) (n : Z) : option Z := match r with Ok f => match ep_read f n with Ok o => o | Err _ => None end | Err _ => None end.
Example C57_control_ex : at_id (mkId 3 0 0) f_ops0 /\ reg_of (Ok f_ops0) 0x1e = Some 0x00002810 /\
  reg_of (write_readrq ep_cr ep_cw (listing f_ops0) 5 f_ops0) 0x1e = Some 0x00005810 /\ reg_of (write_mps ep_cr ep_cw (listing f_ops0) 2 1 f_ops0) 0x1e = Some 0x00002830 /\
  reg_of (configure_extended_tags ep_cr ep_cw (listing f_ops0) 0x20 f_ops0) 0x1e = Some 0x00002910.
Proof. vm_compute. repeat split. Qed.

(** A root port that offers CRS software visibility and has detected an error. *)
Definition fn2 : fnc := mkFn bridge_init
  (fun i => if Nat.eqb i 0 then mkCap KPcie 0x10 0 15 None 0 (aset pe_correctable_error_detected 1 (aset pe_crs_software_visibility 1 pec_init)) else pm_cap_new) [] [] (mkId 0 0 0).
Definition f_port : fnc := get (frun br_write [FReg 0 None] fn2).
Lemma f_port_pcie : has_pcie br_read br_write fn2 [FReg 0 None] f_port 0.
Proof.
  split; [|split; [apply fits_alongb_ok; vm_compute; reflexivity|split; [vm_compute; auto|repeat split; try (vm_compute; discriminate); vm_compute; reflexivity]]].
  split; [right; right; left; reflexivity|]. split; [|split; [|apply get_ok; vm_compute; reflexivity]].
  - repeat split; destruct i; reflexivity.
  - intros i o [H|[]]. injection H as <- _. reflexivity.
Qed.
(** The device status register shares its dword with device control: setting a field clears the errors that the device has recorded. *)
Theorem C57_status_refuted : exists f0 ops f i tg crs dev v f' v', has_pcie br_read br_write f0 ops f i /\ at_id dev f /\
  write_mps (config_read (cfg_deliver br_read br_write tg) crs dev) (config_write (cfg_deliver br_read br_write tg) dev) (listing f) 2 1 f = Ok f' /\
  br_read f (off (f_heap f i) + 2) = Ok (Some v) /\ br_read f' (off (f_heap f i) + 2) = Ok (Some v') /\ Z.testbit v 16 = true /\ Z.testbit v' 16 = false.
Proof.
  set (tg := fun _ : Z => 7). exists fn2, [FReg 0 None], f_port, 0%nat, tg, None, (mkId 3 0 0), 0x00012810.
  destruct (C57_mps_partial br_read br_write _ tg None (mkId 3 0 0) fn2 [FReg 0 None] f_port 0 2 1 (or_intror (or_intror (or_introl eq_refl))) f_port_pcie) as (v & f' & R & E & R' & _);
    [split; reflexivity|]. assert (R1 : br_read f_port (off (f_heap f_port 0%nat) + 2) = Ok (Some 0x00012810)) by (vm_compute; reflexivity). rewrite R1 in R. injection R as <-.
  exists f'. eexists. split; [exact f_port_pcie|]. split; [split; reflexivity|]. split; [exact E|]. split; [exact R1|]. split; [exact R'|]. vm_compute. split; reflexivity.
Qed.
Definition port_reg (r : res fnc) (n : Z) : option Z := match r with Ok f => match br_read f n with Ok o => o | Err _ => None end | Err _ => None end.
Example C57_port_ex : at_id (mkId 3 0 0) f_port /\ port_reg (Ok f_port) 0x17 = Some 0x00010000 /\
  let cr := config_read (cfg_deliver br_read br_write (fun _ => 7)) None (mkId 3 0 0) in let cw := config_write (cfg_deliver br_read br_write (fun _ => 7)) (mkId 3 0 0) in
  port_reg (enable_crs cr cw (listing f_port) f_port) 0x17 = Some 0x00010010 /\ port_reg (Ok f_port) 0xf = Some 0 /\ port_reg (configure_serr cr cw 1 f_port) 0xf = Some 0x20000.
Proof. vm_compute. repeat split. Qed.

Print Assumptions C57_runs.
Print Assumptions C57_decode.
Print Assumptions C57_upstream_partial.
Print Assumptions C57_count.
Print Assumptions C57_busmaster.
Print Assumptions C57_frame.
Print Assumptions C57_upstream_refuted.
Print Assumptions C57_count_refuted.
Print Assumptions C57_readrq_partial.
Print Assumptions C57_mps_partial.
Print Assumptions C57_tags_partial.
Print Assumptions C57_crs.
Print Assumptions C57_serr.
Print Assumptions C57_status_refuted.
