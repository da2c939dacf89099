(** C61: after enumeration and assignment, memory and I/O accesses of the host and of functions, with all their requests and completions, read and write exactly the bytes of the BAR or of host memory at the address. *)
From Verif Require Import Base SpecTlp SpecMem ModelUtils ModelTlp ModelAttrs ModelCapList ModelConfig ModelFunction ModelRegion ModelCompleter ModelRoute ModelEnum ModelAssign SpecBar SpecRoute SpecEnum SpecAssign
  ModelTree SpecTree ModelTreeUp SpecTreeUp ModelFabric SpecFabric ProofsTreeAll ProofsFabricMem ProofsFabricIo PropertiesTree PropertiesTreeUp.

(** Missing, as for C60_address_partial: trees in which bridges have BARs or share their bus with functions that are not bridges, unaligned or meeting ranges, addresses that a BAR decodes wrongly. *)
Section Fabric.
Context (m : Z) (h : hw) (z : net) (l : lims) (h' : hw) (b : pbus) (n : list adev) (l' : lims).
(** Reading a memory BAR: the host, or any function from which there is a way, gets the bytes of the region. *)
Theorem C61_read_partial : brought_up m h z l h' b n l' -> tidy b -> (forall k, (granule k | lim k l)) -> apart l l' ->
  forall k e a q g j, bar_at (set_up h' n l l' z) n false e a q g j ->
  forall c w tg addr len, sender (set_up h' n l l' z) (rq_id c) q -> 0 <= s_mps k (p_id e) <= 5 -> rg_size (w_bar w (p_id e) j) = a_size a -> 0 <= rq_mrrs c -> rq_bus_master c = true -> 0 <= len ->
  a_addr a <= hull_lo addr -> hull_hi addr len <= a_addr a + a_size a ->
  mem_read c (fun i t => arriving (set_up h' n l l' z) k w (rq_id c) (set_tag (tg i) t)) addr len = Ok (read_mem (rg_mem (w_bar w (p_id e) j)) (addr - a_addr a) len).
Proof. intros U. exact (mem_read_bar m h _ l h' b n l' (up_arranged _ _ _ _ _ _ _ _ U)). Qed.
(** Writing one: these bytes of the region change, nothing else does, and nobody answers. *)
Theorem C61_write_partial : brought_up m h z l h' b n l' -> tidy b -> (forall k, (granule k | lim k l)) -> apart l l' ->
  forall k e a q g j, bar_at (set_up h' n l l' z) n false e a q g j ->
  forall c w tg addr d, sender (set_up h' n l l' z) (rq_id c) q -> rg_size (w_bar w (p_id e) j) = a_size a -> 0 <= rq_mps c -> rq_bus_master c = true -> d <> [] ->
  a_addr a <= hull_lo addr -> hull_hi addr (zlen d) <= a_addr a + a_size a ->
  exists ts w', mem_write c addr d = Ok ts /\ exchanges (set_up h' n l l' z) k w (rq_id c) tg 0 ts = Ok (w', map (fun _ => []) ts) /\ w_host w' = w_host w /\ rg_size (w_bar w' (p_id e) j) = a_size a /\
    (forall x, rg_mem (w_bar w' (p_id e) j) x = replaced (rg_mem (w_bar w (p_id e) j)) (addr - a_addr a) d x) /\ forall i1 j1, (i1, j1) <> (p_id e, j) -> w_bar w' i1 j1 = w_bar w i1 j1.
Proof. intros U. exact (mem_write_bar m h _ l h' b n l' (up_arranged _ _ _ _ _ _ _ _ U)). Qed.
(** The same for I/O BARs; every I/O write is confirmed. *)
Theorem C61_io_read_partial : brought_up m h z l h' b n l' -> tidy b -> (forall k, (granule k | lim k l)) -> apart l l' ->
  forall k e a q g j, bar_at (set_up h' n l l' z) n true e a q g j ->
  forall c w tg addr len, sender (set_up h' n l l' z) (rq_id c) q -> rg_size (w_bar w (p_id e) j) = a_size a -> rq_bus_master c = true -> 1 <= len -> a_addr a <= hull_lo addr -> hull_hi addr len <= a_addr a + a_size a ->
  io_read c (fun i t => arriving (set_up h' n l l' z) k w (rq_id c) (set_tag (tg i) t)) addr len = Ok (read_mem (rg_mem (w_bar w (p_id e) j)) (addr - a_addr a) len).
Proof. intros U. exact (io_read_bar m h _ l h' b n l' (up_arranged _ _ _ _ _ _ _ _ U)). Qed.
Theorem C61_io_write_partial : brought_up m h z l h' b n l' -> tidy b -> (forall k, (granule k | lim k l)) -> apart l l' ->
  forall k e a q g j, bar_at (set_up h' n l l' z) n true e a q g j ->
  forall c w tg addr d, sender (set_up h' n l l' z) (rq_id c) q -> rg_size (w_bar w (p_id e) j) = a_size a -> rq_bus_master c = true -> d <> [] -> a_addr a <= hull_lo addr -> hull_hi addr (zlen d) <= a_addr a + a_size a ->
  exists ts w' css, io_write c addr d = Ok ts /\ exchanges (set_up h' n l l' z) k w (rq_id c) tg 0 ts = Ok (w', css) /\ io_write_join (fun i _ => nth i css []) 0 ts = Ok tt /\ w_host w' = w_host w /\ rg_size (w_bar w' (p_id e) j) = a_size a /\
    (forall x, rg_mem (w_bar w' (p_id e) j) x = replaced (rg_mem (w_bar w (p_id e) j)) (addr - a_addr a) d x) /\ forall i1 j1, (i1, j1) <> (p_id e, j) -> w_bar w' i1 j1 = w_bar w i1 j1.
Proof. intros U. exact (io_write_bar m h _ l h' b n l' (up_arranged _ _ _ _ _ _ _ _ U)). Qed.
(** A function reads and writes the memory of the host. *)
Theorem C61_host_read_partial : brought_up m h z l h' b n l' -> tidy b -> (forall k, (granule k | lim k l)) -> apart l l' ->
  forall k p u lo hi, p <> [] -> net_at (set_up h' n l l' z) p = Some u -> host_side l l' false lo hi -> (forall x e a, lo <= x < hi -> In (e, a) (flat_map bar_allocs n) -> decodes false x a) ->
  forall c w tg addr len, rq_id c = f_id (net_fn u) -> 0 <= rc_mps (s_rc k) <= 5 -> 0 <= rq_mrrs c -> rq_bus_master c = true -> 0 <= len -> lo <= hull_lo addr -> hull_hi addr len <= hi ->
  (forall a k, hull_lo addr <= a -> a + k <= hull_hi addr len -> h_find (w_host w) a k = true /\ h_access (w_host w) a k = true) ->
  mem_read c (fun i t => arriving (set_up h' n l l' z) k w (rq_id c) (set_tag (tg i) t)) addr len = Ok (read_mem (h_mem (w_host w)) addr len).
Proof. intros U. exact (mem_read_host m h _ l h' b n l' (up_arranged _ _ _ _ _ _ _ _ U)). Qed.
Theorem C61_host_write_partial : brought_up m h z l h' b n l' -> tidy b -> (forall k, (granule k | lim k l)) -> apart l l' ->
  forall k p u lo hi, p <> [] -> net_at (set_up h' n l l' z) p = Some u -> host_side l l' false lo hi -> (forall x e a, lo <= x < hi -> In (e, a) (flat_map bar_allocs n) -> decodes false x a) ->
  forall c w tg addr d, rq_id c = f_id (net_fn u) -> 0 <= rq_mps c -> rq_bus_master c = true -> d <> [] -> lo <= hull_lo addr -> hull_hi addr (zlen d) <= hi ->
  (forall a k, hull_lo addr <= a -> a + k <= hull_hi addr (zlen d) -> h_find (w_host w) a k = true /\ h_access (w_host w) a k = true) ->
  exists ts w', mem_write c addr d = Ok ts /\ exchanges (set_up h' n l l' z) k w (rq_id c) tg 0 ts = Ok (w', map (fun _ => []) ts) /\ w_bar w' = w_bar w /\ forall x, h_mem (w_host w') x = replaced (h_mem (w_host w)) addr d x.
Proof. intros U. exact (mem_write_host m h _ l h' b n l' (up_arranged _ _ _ _ _ _ _ _ U)). Qed.
(** ... and its I/O space. *)
Theorem C61_host_io_read_partial : brought_up m h z l h' b n l' -> tidy b -> (forall k, (granule k | lim k l)) -> apart l l' ->
  forall k p u lo hi, p <> [] -> net_at (set_up h' n l l' z) p = Some u -> host_side l l' true lo hi -> (forall x e a, lo <= x < hi -> In (e, a) (flat_map bar_allocs n) -> decodes true x a) ->
  forall c w tg addr len, rq_id c = f_id (net_fn u) -> rq_bus_master c = true -> 1 <= len -> lo <= hull_lo addr -> hull_hi addr len <= hi ->
  (forall a k, hull_lo addr <= a -> a + k <= hull_hi addr len -> h_find (w_host w) a k = true /\ h_access (w_host w) a k = true) ->
  io_read c (fun i t => arriving (set_up h' n l l' z) k w (rq_id c) (set_tag (tg i) t)) addr len = Ok (read_mem (h_mem (w_host w)) addr len).
Proof. intros U. exact (io_read_host m h _ l h' b n l' (up_arranged _ _ _ _ _ _ _ _ U)). Qed.
Theorem C61_host_io_write_partial : brought_up m h z l h' b n l' -> tidy b -> (forall k, (granule k | lim k l)) -> apart l l' ->
  forall k p u lo hi, p <> [] -> net_at (set_up h' n l l' z) p = Some u -> host_side l l' true lo hi -> (forall x e a, lo <= x < hi -> In (e, a) (flat_map bar_allocs n) -> decodes true x a) ->
  forall c w tg addr d, rq_id c = f_id (net_fn u) -> rq_bus_master c = true -> d <> [] -> lo <= hull_lo addr -> hull_hi addr (zlen d) <= hi ->
  (forall a k, hull_lo addr <= a -> a + k <= hull_hi addr (zlen d) -> h_find (w_host w) a k = true /\ h_access (w_host w) a k = true) ->
  exists ts w' css, io_write c addr d = Ok ts /\ exchanges (set_up h' n l l' z) k w (rq_id c) tg 0 ts = Ok (w', css) /\ io_write_join (fun i _ => nth i css []) 0 ts = Ok tt /\ w_bar w' = w_bar w /\
    forall x, h_mem (w_host w') x = replaced (h_mem (w_host w)) addr d x.
Proof. intros U. exact (io_write_host m h _ l h' b n l' (up_arranged _ _ _ _ _ _ _ _ U)). Qed.
End Fabric.

(** ** Example: the tree of C60_ex *)
Definition fab_w : world := mkW (mkHost (fun _ _ => true) (fun _ _ => true) (fun x => x mod 251)) (fun i j => mkRegion (if j =? 0 then 4096 else 256) (fun x => (x + bus i) mod 241)).
Definition fab_k : settings := mkSet (mkRcCfg 0 false false) (fun _ => 0).
Definition fab_c (i : pcie_id) : req_cfg := mkReqCfg true i 2 0 0 0.
Definition fab_tag (i : nat) : Z := Z.of_nat i mod 32.
(** The result of a write: what the region or host memory has then *)
Definition after {A} (r : res (world * A)) (f : world -> list Z) : option (list Z) := match r with Ok (w, _) => Some (f w) | Err _ => None end.
Definition writing (z : net) (c : req_cfg) (addr : Z) (d : list Z) : res (world * list (list tlp)) := ts <- mem_write c addr d ;; exchanges z fab_k fab_w (rq_id c) fab_tag 0 ts.
Definition reading (z : net) (c : req_cfg) (addr n : Z) : res (list Z) := mem_read c (fun i t => arriving z fab_k fab_w (rq_id c) (set_tag (fab_tag i) t)) addr n.
Definition io_reading (z : net) (c : req_cfg) (addr n : Z) : res (list Z) := io_read c (fun i t => arriving z fab_k fab_w (rq_id c) (set_tag (fab_tag i) t)) addr n.
Ltac known U := let Sc := fresh in let As := fresh in pose proof U as (_ & Sc & As & _); vm_compute in Sc; injection Sc as <- <-; vm_compute in As; injection As as <- <-.
Example C61_ex : exists h' b n l', brought_up 0 up_hw up_net ex_l h' b n l' /\ apart ex_l l' /\ tidy b /\
  let z := set_up h' n ex_l l' up_net in
  (exists e a g, bar_at z n false e a [1; 0]%nat g 0 /\ p_id e = mkId 2 0 0 /\ a_addr a = 0xc0100000 /\ rg_size (w_bar fab_w (p_id e) 0) = a_size a) /\
  sender z (mkId 0 0 0) [1; 0]%nat /\ sender z (mkId 1 0 1) [1; 0]%nat /\ host_side ex_l l' false 0x1000 0x100000 /\
  (* the host and 1:0.1 read 700 bytes of 2:0.0 *)
  reading z (fab_c (mkId 0 0 0)) 0xc0100123 700 = Ok (read_mem (rg_mem (w_bar fab_w (mkId 2 0 0) 0)) 0x123 700) /\
  reading z (fab_c (mkId 1 0 1)) 0xc0100123 700 = Ok (read_mem (rg_mem (w_bar fab_w (mkId 2 0 0) 0)) 0x123 700) /\
  io_reading z (fab_c (mkId 2 0 0)) 0x80000011 9 = Ok (read_mem (rg_mem (w_bar fab_w (mkId 1 0 0) 1)) 0x11 9) /\
  (* 1:0.1 writes to 2:0.0, and to the host *)
  after (writing z (fab_c (mkId 1 0 1)) 0xc0100203 [7; 8; 9]) (fun w => read_mem (rg_mem (w_bar w (mkId 2 0 0) 0)) 0x202 5) = Some [0x204 mod 241; 7; 8; 9; 0x208 mod 241] /\
  after (writing z (fab_c (mkId 1 0 1)) 0x2003 [7; 8; 9]) (fun w => read_mem (h_mem (w_host w)) 0x2002 5) = Some [0x2002 mod 251; 7; 8; 9; 0x2006 mod 251] /\
  reading z (fab_c (mkId 1 0 1)) 0x2003 300 = Ok (read_mem (h_mem (w_host fab_w)) 0x2003 300) /\
  (* and reads I/O there *)
  host_side ex_l l' true 0x1000 0x100000 /\ io_reading z (fab_c (mkId 1 0 1)) 0x2003 11 = Ok (read_mem (h_mem (w_host fab_w)) 0x2003 11).
Proof.
  destruct C60_ex as (h' & b & n & l' & U & A & T & _). exists h', b, n, l'. split; [exact U|]. split; [exact A|]. split; [exact T|]. clear A T. known U. clear U. cbv zeta. split.
  { do 3 eexists. split.
    - split; [vm_compute; do 3 right; left; reflexivity|reflexivity| |eexists; vm_compute; reflexivity|reflexivity|reflexivity].
      cbn [a_addr a_size]. intros x X e' a' I. vm_compute in I. repeat (destruct I as [I|I]; [injection I as <- <-; split; [reflexivity|]; intros _; left; lia|]). destruct I.
    - repeat split. }
  split; [left; reflexivity|]. split; [right; exists [0; 1]%nat; eexists; split; [discriminate|]; split; [vm_compute; reflexivity|]; split; reflexivity|].
  split; [split; [lia|]; split; [lia|]; intros x [] X K; try discriminate K; cbn; lia|].
  split; [vm_compute; reflexivity|].
  split; [vm_compute; reflexivity|].
  split; [vm_compute; reflexivity|].
  split; [vm_compute; reflexivity|].
  split; [vm_compute; reflexivity|].
  split; [vm_compute; reflexivity|].
  split; [split; [lia|]; split; [lia|]; intros x [] X K; try discriminate K; cbn; lia|].
  vm_compute; reflexivity.
Qed.
(** ** Refuted: a function does not read the BAR of another function of its device, although the address is that of the BAR. *)
Theorem C61_sibling_refuted : exists h z l h' b n l' e a q g c w k addr, brought_up 0 h z l h' b n l' /\ apart l l' /\ (forall x, (granule x | lim x l)) /\ tidy b /\ bar_at (set_up h' n l l' z) n false e a q g 0 /\
  rg_size (w_bar w (p_id e) 0) = a_size a /\ a_addr a <= hull_lo addr /\ hull_hi addr 4 <= a_addr a + a_size a /\ rq_bus_master c = true /\
  (exists p u, p <> [] /\ net_at (set_up h' n l l' z) p = Some u /\ f_id (net_fn u) = rq_id c /\ bus (rq_id c) = bus (p_id e)) /\
  mem_read c (fun i t => arriving (set_up h' n l l' z) k w (rq_id c) (set_tag (Z.of_nat i) t)) addr 4 = Err PyException.
Proof.
  destruct C60_ex as (h' & b & n & l' & U & A & T & _). exists up_hw, up_net, ex_l, h', b, n, l'. do 2 eexists. exists [0; 0]%nat. eexists. exists (fab_c (mkId 1 0 1)), fab_w, fab_k, 0xc0000010.
  split; [exact U|]. split; [exact A|]. split; [intros []; [exists 0x80000|exists 0xc00|exists 0x80000000000]; reflexivity|]. split; [exact T|]. clear A T. known U. clear U. split.
  { split; [vm_compute; left; reflexivity|reflexivity| |eexists; vm_compute; reflexivity|reflexivity|reflexivity].
    cbn [a_addr a_size]. intros x X e' a' I. vm_compute in I. repeat (destruct I as [I|I]; [injection I as <- <-; split; [reflexivity|]; intros _; left; lia|]). destruct I. }
  split; [reflexivity|]. split; [vm_compute; discriminate|]. split; [vm_compute; discriminate|]. split; [reflexivity|].
  split; [exists [0; 1]%nat; eexists; split; [discriminate|]; split; [vm_compute; reflexivity|]; split; reflexivity|]. vm_compute. reflexivity.
Qed.

Print Assumptions C61_read_partial.
Print Assumptions C61_write_partial.
Print Assumptions C61_io_read_partial.
Print Assumptions C61_io_write_partial.
Print Assumptions C61_host_read_partial.
Print Assumptions C61_host_write_partial.
Print Assumptions C61_host_io_read_partial.
Print Assumptions C61_host_io_write_partial.
Print Assumptions C61_sibling_refuted.
