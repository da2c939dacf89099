(** C67: accesses after [RootComplex.enumerate] has run in a tree without numbers and addresses: what C60, C61 and C62 say of the tree with the registers that enumeration computes holds of the tree that its configuration
    requests leave. *)
From Verif Require Import Base SpecTlp SpecMem ModelUtils ModelTlp ModelAttrs ModelCapList ModelConfig ModelFunction ModelRegion ModelCompleter ModelHost ModelPci ModelRoute ModelEnum ModelAssign SpecBar SpecRoute SpecEnum SpecAssign
  SpecConfig SpecHost ModelTree SpecTree ModelTreeUp SpecTreeUp ModelFabric SpecFabric ModelTreeCfg SpecTreeCfg ModelScan SpecScan ModelEnumCfg SpecEnumCfg ModelAssignCfg SpecAssignCfg SpecAfter ProofsTreeAll ProofsTreeUpAll ProofsFabricMem ProofsFabricIo
  ProofsTreeCfg ProofsTreeCfgAll ProofsAfter PropertiesTree PropertiesTreeUp PropertiesFabric PropertiesTreeCfg PropertiesEnumCfg PropertiesAssignCfg PropertiesEnumerate.

Section After.
Context (fuel : nat) (m : Z) (tags : pcie_id -> Z -> Z) (sv : pcie_id -> option bool) (h : hw) (z0 : net) (l : lims) (h' : hw) (b : pbus) (n : list adev) (l' : lims).
(** There is such a tree: enumeration ends without an error. *)
Theorem C67_tree : system fuel h z0 -> brought_up m h z0 l h' b n l' -> exists z, enumerated_to fuel m tags sv h z0 l h' b n l' z.
Proof. intros Sy U. destruct (enum_arranged fuel m tags sv h z0 l h' b n l' Sy U) as (z & b' & n' & E & _). exists z. split; [exact Sy|]. split; [exact U|]. exists b', n'. exact E. Qed.
Context (z : net).
(** Missing below, as in C60 and C61: trees in which bridges have BARs or share their bus with functions that are not bridges, unaligned or meeting ranges, addresses that a BAR decodes wrongly, the registers of C62. *)
(** Every number is that of the function on exactly one path. *)
Theorem C67_paths : enumerated_to fuel m tags sv h z0 l h' b n l' z ->
  (forall dst, In dst (map number (below_functions h')) <-> exists q w, q <> [] /\ net_at z q = Some w /\ f_id (net_fn w) = dst) /\
  (forall q q' w w', net_at z q = Some w -> net_at z q' = Some w' -> f_id (net_fn w) = f_id (net_fn w') -> q = q').
Proof. intros U. apply after_arranged in U. split; [exact (path_ids m h z l h' b n l' U)|exact (path_once m h z l h' b n l' U)]. Qed.
(** Completions of functions. *)
Theorem C67_ids : enumerated_to fuel m tags sv h z0 l h' b n l' z ->
  forall t ty dst p y, tlp_check t = Ok true -> fmt_type t = Ok ty -> route_of ty t = TBack dst -> p <> [] -> net_at z p = Some y ->
  (dst = mkId 0 0 0 -> from_function z p t = Ok (Passes t)) /\
  (forall q w, q <> [] -> net_at z q = Some w -> f_id (net_fn w) = dst -> from_function z p t = Ok (if way true p q then Stops (net_fn w) t else Drops)) /\
  (dst <> mkId 0 0 0 -> 0 <= bus dst < 256 -> ~ In dst (map number (below_functions h')) -> from_function z p t = Ok Drops).
Proof. intros U. exact (up_back m h z l h' b n l' (after_arranged _ _ _ _ _ _ _ _ _ _ _ _ U)). Qed.
(** Requests of functions. *)
Theorem C67_address_partial : enumerated_to fuel m tags sv h z0 l h' b n l' z ->
  forall t ty io x p y, tlp_check t = Ok true -> fmt_type t = Ok ty -> route_of ty t = TAddr io x -> 0 <= x < 2 ^ 64 ->
  tidy b -> (forall k, (granule k | lim k l)) -> apart l l' -> (forall p a, In (p, a) (flat_map bar_allocs n) -> decodes io x a) -> p <> [] -> net_at z p = Some y ->
  (forall e a q w, In (e, a) (flat_map bar_allocs n) -> holds io x a -> q <> [] -> net_at z q = Some w -> f_id (net_fn w) = p_id e ->
    from_function z p t = Ok (if way true p q then Stops (net_fn w) t else Drops)) /\
  ((forall k, io_kind k = io -> ~ lim k l <= x <= lim k l') -> from_function z p t = Ok (Passes t)) /\
  ((forall e a, In (e, a) (flat_map bar_allocs n) -> ~ holds io x a) -> forall k, io_kind k = io -> lim k l <= x <= lim k l' -> from_function z p t = Ok Drops).
Proof. intros U. exact (up_request m h z l h' b n l' (after_arranged _ _ _ _ _ _ _ _ _ _ _ _ U)). Qed.
(** The host, or any function from which there is a way, reads and writes BARs. *)
Theorem C67_read_partial : enumerated_to fuel m tags sv h z0 l h' b n l' z -> tidy b -> (forall k, (granule k | lim k l)) -> apart l l' ->
  forall k e a q g j, bar_at z n false e a q g j ->
  forall c w tg addr len, sender z (rq_id c) q -> 0 <= s_mps k (p_id e) <= 5 -> rg_size (w_bar w (p_id e) j) = a_size a -> 0 <= rq_mrrs c -> rq_bus_master c = true -> 0 <= len ->
  a_addr a <= hull_lo addr -> hull_hi addr len <= a_addr a + a_size a ->
  mem_read c (fun i t => arriving z k w (rq_id c) (set_tag (tg i) t)) addr len = Ok (read_mem (rg_mem (w_bar w (p_id e) j)) (addr - a_addr a) len).
Proof. intros U. exact (mem_read_bar m h z l h' b n l' (after_arranged _ _ _ _ _ _ _ _ _ _ _ _ U)). Qed.
Theorem C67_write_partial : enumerated_to fuel m tags sv h z0 l h' b n l' z -> tidy b -> (forall k, (granule k | lim k l)) -> apart l l' ->
  forall k e a q g j, bar_at z n false e a q g j ->
  forall c w tg addr d, sender z (rq_id c) q -> rg_size (w_bar w (p_id e) j) = a_size a -> 0 <= rq_mps c -> rq_bus_master c = true -> d <> [] ->
  a_addr a <= hull_lo addr -> hull_hi addr (zlen d) <= a_addr a + a_size a ->
  exists ts w', mem_write c addr d = Ok ts /\ exchanges z k w (rq_id c) tg 0 ts = Ok (w', map (fun _ => []) ts) /\ w_host w' = w_host w /\ rg_size (w_bar w' (p_id e) j) = a_size a /\
    (forall x, rg_mem (w_bar w' (p_id e) j) x = replaced (rg_mem (w_bar w (p_id e) j)) (addr - a_addr a) d x) /\ forall i1 j1, (i1, j1) <> (p_id e, j) -> w_bar w' i1 j1 = w_bar w i1 j1.
Proof. intros U. exact (mem_write_bar m h z l h' b n l' (after_arranged _ _ _ _ _ _ _ _ _ _ _ _ U)). Qed.
Theorem C67_io_read_partial : enumerated_to fuel m tags sv h z0 l h' b n l' z -> tidy b -> (forall k, (granule k | lim k l)) -> apart l l' ->
  forall k e a q g j, bar_at z n true e a q g j ->
  forall c w tg addr len, sender z (rq_id c) q -> rg_size (w_bar w (p_id e) j) = a_size a -> rq_bus_master c = true -> 1 <= len -> a_addr a <= hull_lo addr -> hull_hi addr len <= a_addr a + a_size a ->
  io_read c (fun i t => arriving z k w (rq_id c) (set_tag (tg i) t)) addr len = Ok (read_mem (rg_mem (w_bar w (p_id e) j)) (addr - a_addr a) len).
Proof. intros U. exact (io_read_bar m h z l h' b n l' (after_arranged _ _ _ _ _ _ _ _ _ _ _ _ U)). Qed.
Theorem C67_io_write_partial : enumerated_to fuel m tags sv h z0 l h' b n l' z -> tidy b -> (forall k, (granule k | lim k l)) -> apart l l' ->
  forall k e a q g j, bar_at z n true e a q g j ->
  forall c w tg addr d, sender z (rq_id c) q -> rg_size (w_bar w (p_id e) j) = a_size a -> rq_bus_master c = true -> d <> [] -> a_addr a <= hull_lo addr -> hull_hi addr (zlen d) <= a_addr a + a_size a ->
  exists ts w' css, io_write c addr d = Ok ts /\ exchanges z k w (rq_id c) tg 0 ts = Ok (w', css) /\ io_write_join (fun i _ => nth i css []) 0 ts = Ok tt /\ w_host w' = w_host w /\ rg_size (w_bar w' (p_id e) j) = a_size a /\
    (forall x, rg_mem (w_bar w' (p_id e) j) x = replaced (rg_mem (w_bar w (p_id e) j)) (addr - a_addr a) d x) /\ forall i1 j1, (i1, j1) <> (p_id e, j) -> w_bar w' i1 j1 = w_bar w i1 j1.
Proof. intros U. exact (io_write_bar m h z l h' b n l' (after_arranged _ _ _ _ _ _ _ _ _ _ _ _ U)). Qed.
(** Functions read and write the memory and the I/O space of the host. *)
Theorem C67_host_read_partial : enumerated_to fuel m tags sv h z0 l h' b n l' z -> tidy b -> (forall k, (granule k | lim k l)) -> apart l l' ->
  forall k p u lo hi, p <> [] -> net_at z p = Some u -> host_side l l' false lo hi -> (forall x e a, lo <= x < hi -> In (e, a) (flat_map bar_allocs n) -> decodes false x a) ->
  forall c w tg addr len, rq_id c = f_id (net_fn u) -> 0 <= rc_mps (s_rc k) <= 5 -> 0 <= rq_mrrs c -> rq_bus_master c = true -> 0 <= len -> lo <= hull_lo addr -> hull_hi addr len <= hi ->
  (forall a k, hull_lo addr <= a -> a + k <= hull_hi addr len -> h_find (w_host w) a k = true /\ h_access (w_host w) a k = true) ->
  mem_read c (fun i t => arriving z k w (rq_id c) (set_tag (tg i) t)) addr len = Ok (read_mem (h_mem (w_host w)) addr len).
Proof. intros U. exact (mem_read_host m h z l h' b n l' (after_arranged _ _ _ _ _ _ _ _ _ _ _ _ U)). Qed.
Theorem C67_host_write_partial : enumerated_to fuel m tags sv h z0 l h' b n l' z -> tidy b -> (forall k, (granule k | lim k l)) -> apart l l' ->
  forall k p u lo hi, p <> [] -> net_at z p = Some u -> host_side l l' false lo hi -> (forall x e a, lo <= x < hi -> In (e, a) (flat_map bar_allocs n) -> decodes false x a) ->
  forall c w tg addr d, rq_id c = f_id (net_fn u) -> 0 <= rq_mps c -> rq_bus_master c = true -> d <> [] -> lo <= hull_lo addr -> hull_hi addr (zlen d) <= hi ->
  (forall a k, hull_lo addr <= a -> a + k <= hull_hi addr (zlen d) -> h_find (w_host w) a k = true /\ h_access (w_host w) a k = true) ->
  exists ts w', mem_write c addr d = Ok ts /\ exchanges z k w (rq_id c) tg 0 ts = Ok (w', map (fun _ => []) ts) /\ w_bar w' = w_bar w /\ forall x, h_mem (w_host w') x = replaced (h_mem (w_host w)) addr d x.
Proof. intros U. exact (mem_write_host m h z l h' b n l' (after_arranged _ _ _ _ _ _ _ _ _ _ _ _ U)). Qed.
Theorem C67_host_io_read_partial : enumerated_to fuel m tags sv h z0 l h' b n l' z -> tidy b -> (forall k, (granule k | lim k l)) -> apart l l' ->
  forall k p u lo hi, p <> [] -> net_at z p = Some u -> host_side l l' true lo hi -> (forall x e a, lo <= x < hi -> In (e, a) (flat_map bar_allocs n) -> decodes true x a) ->
  forall c w tg addr len, rq_id c = f_id (net_fn u) -> rq_bus_master c = true -> 1 <= len -> lo <= hull_lo addr -> hull_hi addr len <= hi ->
  (forall a k, hull_lo addr <= a -> a + k <= hull_hi addr len -> h_find (w_host w) a k = true /\ h_access (w_host w) a k = true) ->
  io_read c (fun i t => arriving z k w (rq_id c) (set_tag (tg i) t)) addr len = Ok (read_mem (h_mem (w_host w)) addr len).
Proof. intros U. exact (io_read_host m h z l h' b n l' (after_arranged _ _ _ _ _ _ _ _ _ _ _ _ U)). Qed.
Theorem C67_host_io_write_partial : enumerated_to fuel m tags sv h z0 l h' b n l' z -> tidy b -> (forall k, (granule k | lim k l)) -> apart l l' ->
  forall k p u lo hi, p <> [] -> net_at z p = Some u -> host_side l l' true lo hi -> (forall x e a, lo <= x < hi -> In (e, a) (flat_map bar_allocs n) -> decodes true x a) ->
  forall c w tg addr d, rq_id c = f_id (net_fn u) -> rq_bus_master c = true -> d <> [] -> lo <= hull_lo addr -> hull_hi addr (zlen d) <= hi ->
  (forall a k, hull_lo addr <= a -> a + k <= hull_hi addr (zlen d) -> h_find (w_host w) a k = true /\ h_access (w_host w) a k = true) ->
  exists ts w' css, io_write c addr d = Ok ts /\ exchanges z k w (rq_id c) tg 0 ts = Ok (w', css) /\ io_write_join (fun i _ => nth i css []) 0 ts = Ok tt /\ w_bar w' = w_bar w /\
    forall x, h_mem (w_host w') x = replaced (h_mem (w_host w)) addr d x.
Proof. intros U. exact (io_write_host m h z l h' b n l' (after_arranged _ _ _ _ _ _ _ _ _ _ _ _ U)). Qed.
(** Further configuration accesses of the host. *)
Theorem C67_config_read : enumerated_to fuel m tags sv h z0 l h' b n l' z ->
  forall z' q g br kids tg crs addr len, same_numbers z z' -> q <> [] -> net_at z' q = Some (Net g br kids) ->
  0 <= len -> (forall r, addr / 4 <= r <= (addr + len - 1) / 4 -> readable (cfg_rd br) g r) ->
  exists d, config_read (cfg_request tg) crs (f_id g) addr len z' = Ok (z', d) /\ zlen d = len /\
    forall k, 0 <= k < len -> cfg_byte (cfg_rd br) g (addr + k) = Some (nth (Z.to_nat k) d 0).
Proof. intros U. exact (tree_read m h z l h' b n l' (after_arranged _ _ _ _ _ _ _ _ _ _ _ _ U)). Qed.
Theorem C67_config_write_partial : enumerated_to fuel m tags sv h z0 l h' b n l' z ->
  forall z' q g br kids tg addr d, same_numbers z z' -> q <> [] -> net_at z' q = Some (Net g br kids) -> bytes_ok d -> spared br addr (zlen d) ->
  exists z'' g', config_write (cfg_request tg) (f_id g) addr d z' = Ok z'' /\ same_numbers z z'' /\ (exists kids', net_at z'' q = Some (Net g' br kids')) /\
    (forall p, p <> q -> option_map (fun w => (net_fn w, net_br w)) (net_at z'' p) = option_map (fun w => (net_fn w, net_br w)) (net_at z' p)) /\
    (forall r v rw w1c exc, cfg_rd br g r = Ok (Some v) -> masks_of br g r = Some (rw, w1c, exc) ->
      exists v', cfg_rd br g' r = Ok (Some v') /\ masks_of br g' r = Some (rw, w1c, exc) /\
        (forall i, 0 <= i -> Z.testbit exc i = false -> Z.testbit v' i = host_bit rw w1c addr d r v i) /\
        (d = [] \/ 4 * r + 4 <= addr \/ addr + zlen d <= 4 * r -> v' = v)).
Proof. intros U. exact (tree_write m h z l h' b n l' (after_arranged _ _ _ _ _ _ _ _ _ _ _ _ U)). Qed.
Theorem C67_config_absent : enumerated_to fuel m tags sv h z0 l h' b n l' z ->
  forall tg crs z' dev addr len d, same_numbers z z' -> 0 <= bus dev < 256 -> ~ In dev (map number (below_functions h')) -> 0 <= len ->
  config_read (cfg_request tg) crs dev addr len z' = Ok (z', repeat 0xff (Z.to_nat len)) /\ config_write (cfg_request tg) dev addr d z' = Ok z'.
Proof. intros U. exact (tree_absent m h z l h' b n l' (after_arranged _ _ _ _ _ _ _ _ _ _ _ _ U)). Qed.
End After.

(** ** Example: the tree of C64.  The host finds the endpoint 1:0.0 behind the root port; then it reads 700 bytes of its BAR 0, and writes there. *)
Definition af_z : net := match cfg_enumerate (fun dev => config_read (cfg_ask (fun _ => 5)) None dev) (fun dev => config_write (cfg_ask (fun _ => 5)) dev) 5 1 ex_l en_net with Ok (z, _, _, _) => z | Err _ => en_net end.
Definition af_w : world := mkW (mkHost (fun _ _ => true) (fun _ _ => true) (fun x => x mod 251)) (fun i j => mkRegion (if j =? 0 then 2 ^ 16 else 2 ^ 20) (fun x => (x + bus i) mod 241)).
Example C67_ex : exists h' b n l', enumerated_to 5 1 (fun _ _ => 5) (fun _ => None) en_hw en_net ex_l h' b n l' af_z /\ apart ex_l l' /\ (forall k, (granule k | lim k ex_l)) /\ tidy b /\
  (exists e a g, bar_at af_z n false e a [0; 0]%nat g 0 /\ p_id e = mkId 1 0 0 /\ a_addr a = 0xc0000000 /\ rg_size (w_bar af_w (p_id e) 0) = a_size a) /\ sender af_z (mkId 0 0 0) [0; 0]%nat /\
  mem_read (fab_c (mkId 0 0 0)) (fun i t => arriving af_z fab_k af_w (mkId 0 0 0) (set_tag (fab_tag i) t)) 0xc0000123 700 = Ok (read_mem (rg_mem (w_bar af_w (mkId 1 0 0) 0)) 0x123 700).
Proof.
  destruct C66_ex as (Sy & _ & h' & b & n & l' & U & A & G & _). exists h', b, n, l'. split.
  { split; [exact Sy|]. split; [exact U|]. destruct (enum_arranged 5 1 (fun _ _ => 5) (fun _ => None) _ _ _ _ _ _ _ Sy U) as (z & b' & n' & E & _). exists b', n'. rewrite E. unfold af_z. rewrite E. reflexivity. }
  split; [exact A|]. split; [exact G|]. clear A G. known U. clear U Sy. split; [|split].
  { cbn [tidy]. repeat split; intros H p o I; cbn [In] in I; try (destruct H as (p' & c & H); cbn [In] in H; repeat (destruct H as [H|H]; [discriminate H|]); destruct H); repeat (destruct I as [I|I]; [injection I as <- <-; reflexivity|]); destruct I. }
  { do 3 eexists. split.
    - split; [vm_compute; left; reflexivity|reflexivity| |eexists; vm_compute; reflexivity|reflexivity|reflexivity].
      cbn [a_addr a_size]. intros x X e' a' I. vm_compute in I. repeat (destruct I as [I|I]; [injection I as <- <-; split; [reflexivity|]; intros _; left; lia|]). destruct I.
    - repeat split. }
  split; [left; reflexivity|]. vm_compute. reflexivity.
Qed.

(** Room: a tree with up to 256 buses whose BARs, ROMs and bridge granules fit above the limits is always enumerated, whatever its shape, and no more than that space is used. *)
Theorem C67_room : forall fuel m tags sv h z l, system fuel h z -> good_system m h -> bridges h <= 256 -> (exists f zs, z = Net f true zs /\ host_like f /\ Forall2 shown (hw_below h) zs) ->
  (forall k, 0 < lim k l) -> (forall k, lim k l + space k h < top k) ->
  exists h' b n l' z', enumerated_to fuel m tags sv h z l h' b n l' z' /\ forall k, lim k l <= lim k l' <= lim k l + space k h.
Proof.
  intros fuel m tags sv h z l Sy G Le Z L0 LT. destruct (room_enough m h z l G Le Z L0 LT) as (h' & b & n & l' & U & Li). destruct (C67_tree fuel m tags sv h z l h' b n l' Sy U) as (z' & E). exists h', b, n, l', z'. auto.
Qed.
Example C67_room_ex : system 5 en_hw en_net /\ good_system 1 en_hw /\ bridges en_hw <= 256 /\ (exists f zs, en_net = Net f true zs /\ host_like f /\ Forall2 shown (hw_below en_hw) zs) /\
  (forall k, 0 < lim k ex_l) /\ (forall k, 0 < space k en_hw /\ lim k ex_l + space k en_hw < top k).
Proof.
  destruct C66_ex as (Sy & Le & h' & b & n & l' & (G & _ & _ & _ & Z) & _). split; [exact Sy|]. split; [exact G|]. split; [exact Le|]. split; [exact Z|]. split; intros []; vm_compute; auto.
Qed.

Print Assumptions C67_tree.
Print Assumptions C67_paths.
Print Assumptions C67_ids.
Print Assumptions C67_address_partial.
Print Assumptions C67_read_partial.
Print Assumptions C67_write_partial.
Print Assumptions C67_io_read_partial.
Print Assumptions C67_io_write_partial.
Print Assumptions C67_host_read_partial.
Print Assumptions C67_host_write_partial.
Print Assumptions C67_host_io_read_partial.
Print Assumptions C67_host_io_write_partial.
Print Assumptions C67_config_read.
Print Assumptions C67_config_write_partial.
Print Assumptions C67_config_absent.
Print Assumptions C67_room.
