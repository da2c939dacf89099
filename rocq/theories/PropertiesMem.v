(** C09-C14, C42: memory and IO accesses between requester and completer. *)
From Verif Require Import Base BaseProofs ModelUtils ModelTlp SpecTlp ModelRegion ModelCompleter SpecMem
  ProofsMem ProofsMemE2e ProofsMemWrite ProofsIo.

(** Examples: 128 byte limits, an access across 4 GiB. *)
Definition ex_cfg : req_cfg := mkReqCfg true (mkId 1 2 3) 0 0 1 2.
Definition ex_mem : mem := fun x => (x * x + 3) mod 256.
Definition ex_addr : Z := 0xfffffff5.
Definition ex_data : list Z := map Z.of_nat (List.seq 0 150).
Definition ex_host : host_mem := mkHost (fun _ _ => true) (fun _ _ => true) ex_mem.
Definition ex_region : region := mkRegion 4096 ex_mem.

(** ** C09 *)
Theorem C09_write_requests : forall c addr d, 0 <= rq_mps c -> d <> [] -> rq_bus_master c = true ->
  exists ts, mem_write c addr d = Ok ts /\ covers_write addr d ts /\
  Forall (fun t => request_ok MEM_WRITE MEM_WRITE_64 (128 * 2 ^ rq_mps c) t
     /\ requester_id t = rq_id c /\ tc t = rq_tc c /\ attr t = rq_attr c) ts.
Proof. exact mem_write_ok. Qed.
Example C09_ex : map (fun t => (address t, tlen t, first_be t, last_be t))
    match mem_write ex_cfg ex_addr ex_data with Ok ts => ts | Err _ => [] end
  = [(0xfffffff4, 3, 14, 15); (0x100000000, 32, 15, 15); (0x100000080, 3, 15, 7)].
Proof. reflexivity. Qed.
(** A zero-length write is one request with no byte enabled. *)
Theorem C09_zero : forall c addr, 0 <= rq_mps c -> rq_bus_master c = true ->
  exists t, mem_write c addr [] = Ok [t] /\ tlen t = 1 /\ zlen (data t) = 4 /\ address t = hull_lo addr /\
    (forall a, ~ addressed t a) /\ forall m base x, masked_write m base t x = m x.
Proof. exact mem_write_zero. Qed.

(** ** C10 *)
Theorem C10_read_requests : forall c addr n, 0 <= rq_mrrs c -> 1 <= n ->
  covers_read addr n (read_ops c addr n) /\
  Forall (fun kt => request_ok MEM_READ MEM_READ_64 (128 * 2 ^ rq_mrrs c) (snd kt)
     /\ requester_id (snd kt) = rq_id c /\ tc (snd kt) = rq_tc c /\ attr (snd kt) = rq_attr c) (read_ops c addr n).
Proof. exact read_ops_ok. Qed.
Example C10_ex : map (fun '(k, t) => (k, address t, tlen t, first_be t, last_be t)) (read_ops ex_cfg ex_addr 300)
  = [(11, 0xfffffff4, 3, 14, 15); (128, 0x100000000, 32, 15, 15); (128, 0x100000080, 32, 15, 15); (33, 0x100000100, 9, 15, 1)].
Proof. reflexivity. Qed.

(** ** C11 *)
(** The completions of the endpoint: their payloads are split at 128 byte boundaries, at most the max
    payload size each. *)
Theorem C11_endpoint : forall cid mps r base t, read_request t -> 0 <= last_be t < 16 -> 0 <= mps ->
  page_safe base (rg_size r) -> address t mod 4096 + 4 * tlen t <= 4096 ->
  base <= address t -> address t + 4 * tlen t <= base + rg_size r ->
  let cs := ep_mem_read cid mps (Some (r, address t - base)) t in
  good_split 128 (128 * 2 ^ mps) (first_byte t) (last_byte t - first_byte t + 1)
    (read_mem (bus_mem r base) (address t) (4 * tlen t)) cs /\ Forall (answers cid t) cs.
Proof. exact ep_completions. Qed.
(** The root complex, with either completion boundary, splitting at every boundary or not. *)
Theorem C11_root_complex : forall c h t, read_request t -> 0 <= last_be t < 16 -> 0 <= rc_mps c ->
  address t mod 4096 + 4 * tlen t <= 4096 ->
  h_find h (address t) (4 * tlen t) = true -> h_access h (address t) (4 * tlen t) = true ->
  let rcb := if rc_rcb128 c then 128 else 64 in
  let cs := rc_mem_read c h t in
  good_split rcb (split_limit (rc_mps c) rcb (rc_split_all c)) (first_byte t) (last_byte t - first_byte t + 1)
    (read_mem (h_mem h) (address t) (4 * tlen t)) cs /\ Forall (answers id0 t) cs.
Proof. exact rc_completions. Qed.
(** What [good_split] implies: the payloads in order are the DWORDs, and each completion passes
    validation if the limit is at most 4096. *)
Theorem C11_payload : forall rcb limit a n d cs, good_split rcb limit a n d cs -> concat (map data cs) = d.
Proof. exact good_split_data. Qed.
Theorem C11_valid : forall cid t rcb limit a n d cs, good_split rcb limit a n d cs -> Forall (answers cid t) cs -> limit <= 4096 ->
  Forall (fun c => tlp_check c = Ok true) cs.
Proof. exact good_split_check. Qed.
(** [first_byte] and [last_byte] delimit the bytes asked for. *)
Theorem C11_span : forall t, 1 <= tlen t -> 0 < first_be t < 16 -> (tlen t = 1 \/ 0 < last_be t < 16) ->
  addressed t (first_byte t) /\ addressed t (last_byte t) /\
  forall x, addressed t x -> first_byte t <= x <= last_byte t.
Proof. exact span_hull. Qed.
(** Requests that match nothing or cannot be served are answered by one completion without data,
    requests across a page boundary not at all. *)
Theorem C11_unsupported : forall cid mps t, ep_mem_read cid mps None t = [create_ur_completion t cid].
Proof. reflexivity. Qed.
Definition ex_read : tlp :=
  set_tag 5 (set_last_be 3 (set_first_be 12 (set_tlen 100 (set_address 0x1010 (set_fmt_type MEM_READ tlp0))))).
Example C11_ex : read_request ex_read /\
  map (fun c => (byte_count c, lower_address c, tlen c, tag c)) (ep_mem_read (mkId 1 0 0) 0 (Some (ex_region, 0x10)) ex_read)
  = [(396, 0x12, 28, 5); (286, 0, 32, 5); (158, 0, 32, 5); (30, 0, 8, 5)] /\
  map (fun c => (byte_count c, lower_address c, tlen c, tag c)) (rc_mem_read (mkRcCfg 1 false true) ex_host ex_read)
  = [(396, 0x12, 12, 5); (350, 0x40, 16, 5); (286, 0, 16, 5); (222, 0x40, 16, 5); (158, 0, 16, 5); (94, 0x40, 16, 5); (30, 0, 8, 5)].
Proof. split; [split; cbn; lia|]. split; vm_compute; reflexivity. Qed.
(** Finding: a read that starts inside a BAR and runs past its end is completed successfully with too
    little data and no further completion, instead of being rejected. *)
Theorem C11_past_end_refuted : exists cid mps r t, read_request t /\ 8 + 4 * tlen t <= 4096 /\
  exists c, ep_mem_read cid mps (Some (r, 8)) t = [c] /\ status c = SC /\ byte_count c = 16 /\ zlen (data c) = 8.
Proof. exact past_end. Qed.
(** Finding: the lower address of the completion of a zero-length read is that of byte 3, the PCI
    Express specification (section 2.3.1.1, table of lower address values) asks for byte 0. *)
Theorem C11_zero_length_refuted : exists cid mps r t c, read_request t /\ first_be t = 0 /\ tlen t = 1 /\
  ep_mem_read cid mps (Some (r, 0)) t = [c] /\ byte_count c = 1 /\ lower_address c mod 4 <> 0.
Proof. exact zero_length_lower. Qed.

(** ** C12 *)
(** Any completer that answers as in C11 makes the read return the memory contents. *)
Theorem C12_read : forall c m incoming addr n, 0 <= rq_mrrs c -> rq_bus_master c = true -> 1 <= n ->
  (forall j t, In t (map snd (read_ops c addr n)) -> exists l tl, incoming j t = l ++ tl /\ good_answer m t l) ->
  mem_read c incoming addr n = Ok (read_mem m addr n).
Proof. exact mem_read_e2e. Qed.
(** The completers of the package do, whatever tags are used and whatever arrives afterwards. *)
Theorem C12_root_complex : forall c rcc h tg tl addr n, 0 <= rq_mrrs c -> rq_bus_master c = true -> 0 <= rc_mps rcc -> 0 <= n ->
  (forall a k, hull_lo addr <= a -> a + k <= hull_hi addr n -> h_find h a k = true /\ h_access h a k = true) ->
  mem_read c (fun j t => rc_mem_read rcc h (set_tag (tg j) t) ++ tl j) addr n = Ok (read_mem (h_mem h) addr n).
Proof. exact mem_read_rc. Qed.
Theorem C12_endpoint : forall c cid mps r base tg tl addr n, 0 <= rq_mrrs c -> rq_bus_master c = true -> 0 <= mps -> 0 <= n ->
  page_safe base (rg_size r) -> base <= hull_lo addr -> hull_hi addr n <= base + rg_size r ->
  mem_read c (fun j t => ep_mem_read cid mps (Some (r, address t - base)) (set_tag (tg j) t) ++ tl j) addr n
  = Ok (read_mem (rg_mem r) (addr - base) n).
Proof. exact mem_read_ep. Qed.
(** Whatever arrives: if one of the completions an operation takes is unsuccessful, the read raises. *)
Theorem C12_failure : forall c incoming addr n j k t, 0 <= rq_mrrs c ->
  nth_error (read_ops c addr n) j = Some (k, t) -> Forall wf_cpl (incoming j t) ->
  (exists x, In x (nonposted t (incoming j t)) /\ status x <> SC) ->
  exists e, mem_read c incoming addr n = Err e.
Proof. exact mem_read_fail. Qed.
(** Whatever arrives: if the read returns, it returns exactly [n] bytes. *)
Theorem C12_length : forall c incoming addr n d, 0 <= rq_mrrs c -> 0 <= n ->
  (forall j t, Forall wf_cpl (incoming j t) /\ Forall (fun c => 1 <= tlen c) (incoming j t)) ->
  mem_read c incoming addr n = Ok d -> zlen d = n.
Proof. exact mem_read_length. Qed.
Example C12_ex : mem_read ex_cfg (fun j t => rc_mem_read (mkRcCfg 0 false true) ex_host (set_tag (Z.of_nat j) t)) ex_addr 300
  = Ok (read_mem ex_mem ex_addr 300) /\
  mem_read ex_cfg (fun j t => ep_mem_read id0 1 (Some (ex_region, address t - 0x4000)) (set_tag 7 t)) 0x4ffd 3 = Ok [12; 7; 4].
Proof. split; vm_compute; reflexivity. Qed.
Example C12_failure_ex : exists t, nth_error (read_ops ex_cfg 0x100 10) 0 = Some (10, t) /\
  nonposted t (ep_mem_read id0 1 None t) = [create_ur_completion t id0] /\
  mem_read ex_cfg (fun _ t => ep_mem_read id0 1 None t) 0x100 10 = Err PyException.
Proof. eexists. split; [reflexivity|]. split; vm_compute; reflexivity. Qed.

(** ** C13 *)
Theorem C13_root_complex : forall c h addr d, 0 <= rq_mps c -> rq_bus_master c = true -> d <> [] ->
  (forall a k, hull_lo addr <= a -> a + k <= hull_hi addr (zlen d) -> h_find h a k = true /\ h_access h a k = true) ->
  exists ts, mem_write c addr d = Ok ts /\ forall x, h_mem (fold_left rc_mem_write ts h) x = replaced (h_mem h) addr d x.
Proof. exact mem_write_rc. Qed.
Theorem C13_endpoint : forall c r base addr d, 0 <= rq_mps c -> rq_bus_master c = true -> d <> [] -> page_safe base (rg_size r) ->
  base <= hull_lo addr -> hull_hi addr (zlen d) <= base + rg_size r ->
  exists ts r', mem_write c addr d = Ok ts /\ ep_write_all base r ts = Ok r' /\ rg_size r' = rg_size r /\
    forall x, rg_mem r' x = replaced (rg_mem r) (addr - base) d x.
Proof. exact mem_write_ep. Qed.
Example C13_ex : exists ts r', mem_write ex_cfg 0x4ffd [7; 8; 9] = Ok ts /\ ep_write_all 0x4000 ex_region ts = Ok r' /\
  map (rg_mem r') [0xffc; 0xffd; 0xffe; 0xfff] = [ex_mem 0xffc; 7; 8; 9].
Proof. do 2 eexists. split; [reflexivity|]. split; vm_compute; reflexivity. Qed.

(** ** C14 *)
Theorem C14_endpoint_mem : forall r off t, 1 <= tlen t -> zlen (data t) = 4 * tlen t -> off mod 4096 + 4 * tlen t <= 4096 ->
  off + 4 * tlen t <= rg_size r ->
  exists r', ep_mem_write (Some (r, off)) t = Ok (Some r') /\ rg_size r' = rg_size r /\
    forall x, rg_mem r' x = masked_write (rg_mem r) off t x.
Proof. exact ep_mem_write_ok. Qed.
Theorem C14_root_complex_mem : forall h t, 1 <= tlen t -> zlen (data t) = 4 * tlen t -> address t mod 4096 + 4 * tlen t <= 4096 ->
  h_find h (address t) (4 * tlen t) = true ->
  (forall a k, address t <= a -> a + k <= address t + 4 * tlen t -> h_access h a k = true) ->
  h_find (rc_mem_write h t) = h_find h /\ h_access (rc_mem_write h t) = h_access h /\
  forall x, h_mem (rc_mem_write h t) x = masked_write (h_mem h) (address t) t x.
Proof. exact rc_mem_write_ok. Qed.
Theorem C14_endpoint_io : forall cid r off t, tlen t = 1 -> zlen (data t) = 4 -> off + 4 <= rg_size r ->
  exists r', ep_io_write cid (Some (r, off)) t = Ok ([set_byte_count 4 (create_completion t cid false SC)], Some r') /\
   rg_size r' = rg_size r /\ forall x, rg_mem r' x = masked_write (rg_mem r) off t x.
Proof. exact ep_io_write_ok. Qed.
Theorem C14_root_complex_io : forall h t, tlen t = 1 -> zlen (data t) = 4 -> h_find h (address t) 4 = true ->
  (forall a k, address t <= a -> a + k <= address t + 4 -> h_access h a k = true) ->
  exists h', rc_io_write h t = Ok ([set_byte_count 4 (create_completion t id0 false SC)], h') /\
   forall x, h_mem h' x = masked_write (h_mem h) (address t) t x.
Proof. exact rc_io_write_ok. Qed.
(** [masked_write] goes by the addressed bytes of C05. *)
Theorem C14_enabled : forall t x, 1 <= tlen t -> address t mod 4 = 0 -> (byte_enabled t (x - address t) = true <-> addressed t x).
Proof. exact byte_enabled_addressed. Qed.
Definition ex_masked : tlp :=
  set_data [1; 2; 3; 4; 5; 6; 7; 8; 9; 10; 11; 12] (set_last_be 0xa (set_first_be 5 (set_tlen 3 (set_fmt_type MEM_WRITE tlp0)))).
Example C14_ex : exists r', ep_mem_write (Some (mkRegion 64 (fun _ => 0), 16)) ex_masked = Ok (Some r') /\
  read_mem (rg_mem r') 14 16 = [0; 0; 1; 0; 3; 0; 5; 6; 7; 8; 0; 10; 0; 12; 0; 0].
Proof. eexists. split; [reflexivity|]. vm_compute. reflexivity. Qed.

(** ** C42 *)
Theorem C42_read_requests : forall c n addr, 1 <= n ->
  exists ops, covers_read addr n ops /\ map snd ops = map snd (io_read_split (Z.to_nat n) c false addr n) /\
  Forall (fun kt => io_req_ok IO_READ c (snd kt)) (io_read_split (Z.to_nat n) c false addr n).
Proof. exact io_read_requests. Qed.
Theorem C42_write_requests : forall c addr d, rq_bus_master c = true -> d <> [] ->
  exists ts, io_write c addr d = Ok ts /\ covers_write addr d ts /\ Forall (io_req_ok IO_WRITE c) ts.
Proof. exact io_write_requests. Qed.
Theorem C42_read : forall c m incoming addr n, rq_bus_master c = true -> 1 <= n ->
  (forall j t, In t (map snd (io_read_split (Z.to_nat n) c false addr n)) -> exists a tl, incoming j t = a :: tl /\ good_io_answer m t a) ->
  io_read c incoming addr n = Ok (read_mem m addr n).
Proof. exact io_read_e2e. Qed.
Theorem C42_read_endpoint : forall c cid r base tg tl addr n, rq_bus_master c = true -> 1 <= n ->
  base <= hull_lo addr -> hull_hi addr n <= base + rg_size r ->
  io_read c (fun j t => match ep_io_read cid (Some (r, address t - base)) (set_tag (tg j) t) with Ok l => l ++ tl j | Err _ => [] end) addr n
  = Ok (read_mem (rg_mem r) (addr - base) n).
Proof. exact io_read_ep. Qed.
Theorem C42_answer_root_complex : forall h t tg, tlen t = 1 -> h_find h (address t) 4 = true ->
  (forall a k, address t <= a -> a + k <= address t + 4 -> h_access h a k = true) ->
  exists c, rc_io_read h (set_tag tg t) = Ok [c] /\ good_io_answer (h_mem h) t c /\ answers id0 (set_tag tg t) c.
Proof. exact rc_io_read_ok. Qed.
Theorem C42_write_endpoint : forall c cid base tg r addr d, rq_bus_master c = true -> d <> [] ->
  base <= hull_lo addr -> hull_hi addr (zlen d) <= base + rg_size r ->
  exists ts css r', io_write c addr d = Ok ts /\ ep_io_write_all cid base tg 0 r ts = Ok (css, r') /\
    io_write_join (fun j _ => nth j css []) 0 ts = Ok tt /\ rg_size r' = rg_size r /\
    (forall x, rg_mem r' x = replaced (rg_mem r) (addr - base) d x).
Proof. exact io_write_ep. Qed.
(** Zero-length accesses are one request without byte enables, and the read returns nothing exactly if
    that request is completed successfully. *)
Theorem C42_zero_write : forall c addr, rq_bus_master c = true ->
  exists t, io_write c addr [] = Ok [t] /\ fmt_type t = Ok IO_WRITE /\ tlen t = 1 /\ zlen (data t) = 4 /\ address t = hull_lo addr /\
    (forall a, ~ addressed t a) /\ forall m base x, masked_write m base t x = m x.
Proof. exact io_write_zero. Qed.
Theorem C42_zero_read : forall c addr incoming, rq_bus_master c = true ->
  exists t, io_read_split 1 c true addr 1 = [(addr mod 4, t)] /\ fmt_type t = Ok IO_READ /\ tlen t = 1 /\
    address t = hull_lo addr /\ (forall a, ~ addressed t a) /\
    ((exists a tl, incoming 0%nat t = a :: tl /\ status a = 0 /\ tlen a = 1) <-> io_read c incoming addr 0 = Ok []).
Proof. exact io_read_zero. Qed.
Example C42_ex : io_read ex_cfg (fun _ t => match ep_io_read id0 (Some (ex_region, address t - 0x40)) t with Ok l => l | Err _ => [] end) 0x45 6
  = Ok (read_mem ex_mem 5 6) /\
  exists ts css r', io_write ex_cfg 0x45 [1; 2; 3; 4; 5] = Ok ts /\ ep_io_write_all id0 0x40 Z.of_nat 0 ex_region ts = Ok (css, r') /\
    read_mem (rg_mem r') 4 8 = [ex_mem 4; 1; 2; 3; 4; 5; ex_mem 10; ex_mem 11].
Proof. split; [vm_compute; reflexivity|]. do 3 eexists. split; [reflexivity|]. split; vm_compute; reflexivity. Qed.

Print Assumptions C09_write_requests.
Print Assumptions C09_zero.
Print Assumptions C10_read_requests.
Print Assumptions C11_endpoint.
Print Assumptions C11_root_complex.
Print Assumptions C11_payload.
Print Assumptions C11_valid.
Print Assumptions C11_span.
Print Assumptions C11_unsupported.
Print Assumptions C11_past_end_refuted.
Print Assumptions C11_zero_length_refuted.
Print Assumptions C12_read.
Print Assumptions C12_root_complex.
Print Assumptions C12_endpoint.
Print Assumptions C12_failure.
Print Assumptions C12_length.
Print Assumptions C13_root_complex.
Print Assumptions C13_endpoint.
Print Assumptions C14_endpoint_mem.
Print Assumptions C14_root_complex_mem.
Print Assumptions C14_endpoint_io.
Print Assumptions C14_root_complex_io.
Print Assumptions C14_enabled.
Print Assumptions C42_read_requests.
Print Assumptions C42_write_requests.
Print Assumptions C42_read.
Print Assumptions C42_read_endpoint.
Print Assumptions C42_answer_root_complex.
Print Assumptions C42_write_endpoint.
Print Assumptions C42_zero_write.
Print Assumptions C42_zero_read.
