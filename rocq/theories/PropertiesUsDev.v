(** C45, C46, C47, C49 and C50: the UltraScale device models. *)
From Verif Require Import Base ModelUtils ModelTlp ModelFrames ModelUs ModelTags ModelChan SpecMem ModelUsDev SpecUsDev ProofsUsDev ProofsUsCq ProofsUsWit ProofsUsClient.
From Coq Require Import Lia Permutation.

(** ** C45 *)
(** Outstanding requests have different tags. *)
Theorem C45_distinct : forall o c ls s, urun o ls (udev0 c) = Ok s ->
  NoDup (map tag (opened (w_log s))) /\ Forall (fun r => 0 <= tag r < 256) (opened (w_log s)).
Proof. exact us_tags_distinct. Qed.
(** Tags of the core: the user is told exactly the tags of the requests, in their order, and they are in the range in force. *)
Theorem C45_shown : forall o c ls s, urun o ls (udev0 c) = Ok s -> o_client o = false ->
  map tag (filter needs_answer (map u_tlp (issued (w_log s)))) = shown_tags (w_log s) ++ w_tags s /\
  Forall (fun e => match e with EIssue u n => needs_answer (u_tlp u) = true -> 0 <= tag (u_tlp u) < n | _ => True end) (w_log s).
Proof. exact ginv_run. Qed.
Definition three : list ulabel := [LFrame rd_frame; LSentA; LTagOut; LFrame io_frame; LSentA; LFrame rd_frame; LSentA; LTagOut; LCpl (wcpl 2)].
Example C45_ex : exists s, urun (core_opt us_core) three (udev0 (wcfg false)) = Ok s /\ map tag (opened (w_log s)) = [1; 3] /\
  map tag (map u_tlp (issued (w_log s))) = [1; 2; 3] /\ shown_tags (w_log s) = [1; 2] /\ w_tags s = [3].
Proof. eexists. vm_compute. repeat split. Qed.
(** Tags of the user (not part of C45): one out of the range in force goes out if its request waited for credits. *)
Theorem C45_user_tags_refuted : Forall (fun co => exists ls s u n, urun (io_opt co) ls (udev0 (wcfg false)) = Ok s /\
  In (EIssue u n) (w_log s) /\ needs_answer (u_tlp u) = true /\ n < tag (u_tlp u)) [us_core; usp_core].
Proof. repeat constructor; apply client_range; apply Z.leb_le; reflexivity. Qed.
(** The same request is refused if it is sent directly. *)
Example C45_user_tags_ex : urun (io_opt us_core) [LFrame late_frame] (udev0 (wcfg false)) = Err AssertError /\
  urun (io_opt usp_core) [LFrame late_frame] (udev0 (wcfg false)) = Err AssertError.
Proof. vm_compute. split; reflexivity. Qed.

(** ** C46 *)
(** A completion is given to the user with the code, the address and the completed flag of the specification, for the requests that
    are outstanding when it arrives.  Without space it is lost (C49). *)
Theorem C46_arrival : forall o c ls s t ty, usual_core o -> urun o ls (udev0 c) = Ok s -> fmt_type t = Ok ty -> type_in ty cpl_types = true -> 0 <= tag t < 256 ->
  if existsb (id_eqb (requester_id t)) (g_ids (w_cfg s)) then
    exists s' u, ustep o (LCpl t) s = Ok s' /\ judged (opened (w_log s)) t u /\
      let kept := w_rcq s ++ sending_r (w_r s) in
      w_log s' = w_log s ++ [ECpl t u ((zlen kept <? co_cplh (o_core o)) && (buffer_space (kept ++ [u]) <=? co_cpld (o_core o)))]
  else ustep o (LCpl t) s = Ok s.
Proof. exact cpl_arrives. Qed.
Theorem C46_code : forall o c ls s l1 d u ok l2, urun o ls (udev0 c) = Ok s -> w_log s = l1 ++ ECpl d u ok :: l2 -> judged (opened l1) d u.
Proof. exact us_judged. Qed.
(** All completions of a completer that splits its answer correctly are normal, the addresses follow each other, the last one ends the
    request.  [c1]: those before completion [c]. *)
Theorem C46_split : forall open r cid rcb limit a n d cs, NoDup (map tag open) -> In r open -> memory_read r = true ->
  good_split rcb limit a n d cs -> a + n = last_byte r + 1 -> Forall (answers cid r) cs -> Forall (fun c => ep c = false) cs ->
  forall c1 c c2, cs = c1 ++ c :: c2 ->
    code_of open c = NORMAL_TERMINATION /\ address_of open c = byte_address r c mod 4096 /\
    byte_address r c = (match c1 with [] => a | _ => a - a mod 4 + zlen (concat (map data c1)) end) /\
    existsb (ends_request c) open = (match c2 with [] => true | _ => false end).
Proof. exact good_codes. Qed.
(** A read of 8 bytes from 0x1002 on, answered in two parts, and completions that are wrong in one way each. *)
Definition r_ex : tlp := set_tag 5 (set_first_be 12 (set_last_be 3 (set_address 0x1000 (set_tlen 3 (set_requester_id wid (set_fmt_type MEM_READ tlp0)))))).
Definition c_ex (la bc len : Z) (d : list Z) : tlp := set_lower_address la (set_data d (set_byte_count bc (set_tlen len (set_tag 5 (set_requester_id wid (set_fmt_type CPL_DATA tlp0)))))).
Definition cs_ex : list tlp := [c_ex 2 8 1 [0; 0; 1; 2]; c_ex 4 6 2 [3; 4; 5; 6; 7; 8; 0; 0]].
Example C46_split_ex : good_split 4 128 0x1002 8 ([0; 0; 1; 2] ++ [3; 4; 5; 6; 7; 8; 0; 0]) cs_ex /\ 0x1002 + 8 = last_byte r_ex + 1 /\
  Forall (answers (completer_id tlp0) r_ex) cs_ex /\ map (address_of [r_ex]) cs_ex = [2; 4] /\ map (code_of [r_ex]) cs_ex = [0; 0].
Proof.
  split; [|split; [reflexivity|split; [repeat constructor|split; reflexivity]]].
  apply gs_more with (d := [0; 0; 1; 2]); try reflexivity; [cbn; lia|exists 0x401; reflexivity|]. apply gs_last; try reflexivity; cbn; lia.
Qed.
Example C46_codes_ex : let ok := c_ex 2 8 1 [0; 0; 1; 2] in
  map (code_of [r_ex]) [set_tag 6 ok; set_requester_id (mkId 1 0 1) ok; set_status UR ok; set_fmt_type CPL ok; set_lower_address 3 ok; set_ep true ok; ok] =
    [INVALID_TAG; MISMATCH; BAD_STATUS; INVALID_LENGTH; INVALID_ADDRESS; POISONED; NORMAL_TERMINATION].
Proof. reflexivity. Qed.

(** ** C47 *)
(** What the user gets is what has arrived; only posted requests pass others. *)
Theorem C47_order : forall ls s, cq_run ls cqs0 = Ok s ->
  overtaken (arrivals ls) (k_sent s ++ k_np s ++ k_new s) /\ Forall (fun u => is_np u = true) (k_np s).
Proof. exact cq_order. Qed.
(** Each kind keeps its order, and a request that is not posted comes after all posted ones that arrived before it. *)
Theorem C47_kinds : forall l l', overtaken l l' -> filter is_np l' = filter is_np l /\
  filter (fun u => negb (is_np u)) l' = filter (fun u => negb (is_np u)) l.
Proof. exact overtaken_split. Qed.
Theorem C47_behind : forall l l', overtaken l l' -> forall a n b, l' = a ++ n :: b -> is_np n = true ->
  exists c d, l = c ++ n :: d /\ filter is_np c = filter is_np a /\
    exists x, filter (fun u => negb (is_np u)) a = filter (fun u => negb (is_np u)) c ++ x.
Proof. exact overtaken_behind. Qed.
(** No more requests than the user has made room for. *)
Theorem C47_room : forall ls s, cq_run ls cqs0 = Ok s -> zlen (filter is_np (k_sent s)) + k_count s <= grants ls /\ 0 <= k_count s <= 32.
Proof. exact cq_credit. Qed.
(** If the user makes room, everything is sent. *)
Theorem C47_delivered : forall ls s n m, cq_run ls cqs0 = Ok s -> Forall sendable (k_np s ++ k_new s) ->
  (waiting s <= n)%nat -> (waiting s + 1 < m)%nat ->
  exists s', cq_run (ls ++ repeat KStep m ++ concat (repeat (period m) n)) cqs0 = Ok s' /\ k_np s' = [] /\ k_new s' = [] /\
    overtaken (arrivals ls) (k_sent s').
Proof. exact cq_delivered. Qed.
Definition wr_req : tlp_us := wreq MEM_WRITE 1 0 [1; 2; 3; 4].
Definition cq_ls : list cqlabel := [KArrive rd_req; KArrive io_req; KArrive wr_req; KClock true; KStep; KStep; KStep; KStep].
Example C47_ex : exists s, cq_run cq_ls cqs0 = Ok s /\ k_sent s = [rd_req; wr_req] /\ k_np s = [io_req] /\ k_new s = [] /\ arrivals cq_ls = [rd_req; io_req; wr_req] /\
  Forall sendable (k_np s ++ k_new s).
Proof.
  eexists. split; [vm_compute; reflexivity|]. repeat (split; [reflexivity|]). constructor; [|constructor]. split; [exists IO_WRITE; reflexivity|].
  eexists. vm_compute. reflexivity.
Qed.

(** ** C49 *)
(** The buffer: its counters are those of its content and within the limits; completions leave it in the order of their arrival; the user
    is told about losses, one by one or (UltraScale) at least once. *)
Theorem C49_buffer : forall o c ls s, usual_core o -> urun o ls (udev0 c) = Ok s ->
  let kept := w_rcq s ++ sending_r (w_r s) in
  w_hc s = zlen kept /\ w_dc s = buffer_space kept /\ zlen kept <= co_cplh (o_core o) /\ buffer_space kept <= co_cpld (o_core o) /\
  stored (w_log s) = given (w_log s) ++ w_rcq s.
Proof.
  intros o c ls s U R. destruct (bufok_run o c ls s U R) as [B1 B2 B3 B4 B5 _ _ _]. cbv zeta. rewrite <- B1, <- B2. auto.
Qed.
Theorem C49_told : forall o c ls s, usual_core o -> urun o ls (udev0 c) = Ok s -> w_lerr s = 0 ->
  (co_plus (o_core o) = true -> shown_errors (w_log s) = lost (w_log s)) /\
  (shown_errors (w_log s) <= lost (w_log s))%nat /\ (lost (w_log s) <> O -> shown_errors (w_log s) <> O).
Proof.
  intros o c ls s U R L. destruct (bufok_run o c ls s U R) as [_ _ _ _ _ B6 B7 B8]. split; [intros P; specialize (B7 P); lia|].
  destruct (co_plus (o_core o)); [specialize (B7 eq_refl)|specialize (B8 eq_refl)]; lia.
Qed.
(** Full statement: a completion of an outstanding request finds space.  Requests are only held back for the space of their own payload,
    so the completions of admitted requests may find the buffer full. *)
Theorem C49_space_refuted : forall co, co = us_core \/ co = usp_core -> exists ls s s' u, urun (io_opt co) ls (udev0 (wcfg false)) = Ok s /\
  opened (w_log s) = [u_tlp io_req] /\ ends_request (wcpl 0) (u_tlp io_req) = true /\ code_of (opened (w_log s)) (wcpl 0) = NORMAL_TERMINATION /\
  ustep (io_opt co) (LCpl (wcpl 0)) s = Ok s' /\ w_log s' = w_log s ++ [ECpl (wcpl 0) u false] /\ opened (w_log s') = [].
Proof. exact us_lost. Qed.
Example C49_ex : exists s, urun (core_opt usp_core) (three ++ [LCpl (wcpl 1); LOut; LCpl (wcpl 3)]) (udev0 (wcfg false)) = Ok s /\
  length (w_rcq s) = 2%nat /\ length (sending_r (w_r s)) = 1%nat /\ w_hc s = 3 /\ w_dc s = 3 /\ map (fun u => tag (u_tlp u)) (stored (w_log s)) = [2; 1; 3].
Proof. eexists. vm_compute. repeat split. Qed.

(** ** C50 *)
(** A frame of the RQ stream is accepted unless it is discontinued. *)
Theorem C50_accept : forall o f s s' u, ustep o (LFrame f) s = Ok s' -> w_a s = AIdle -> unpack_us_rq (o_parity o) f = Ok u ->
  if discontinue u then s' = s else
  accepted (w_log s') = accepted (w_log s) ++
    [if rid_enable u then u else on_tlp (fun t => set_requester_id (mkId (g_bus (w_cfg s)) (device (requester_id t)) (func (requester_id t))) t) u].
Proof. exact accept_step. Qed.
(** Accepted requests are sent, discarded (no bus mastering) or wait, each once; only the tag changes, and only for tags of the core. *)
Theorem C50_requests : forall o c ls s, urun o ls (udev0 c) = Ok s ->
  Permutation (map (untagged o) (accepted (w_log s))) (map (untagged o) (settled (w_log s) ++ w_np s ++ held_a (w_a s) ++ held_b (w_b s))).
Proof. exact tsum_run. Qed.
(** Each sequence number is shown once, after [send] of its request. *)
Theorem C50_sequence : forall o c ls s, urun o ls (udev0 c) = Ok s ->
  Permutation (map seq_num (issued (w_log s))) (shown_seqs (w_log s) ++ w_seqs s ++ map seq_num (sending_a (w_a s) ++ sending_b (w_b s))).
Proof. exact sinv_run. Qed.
(** Posted requests never wait and keep their order. *)
Theorem C50_posted : forall o c ls s, urun o ls (udev0 c) = Ok s -> posted (settled (w_log s)) = posted (accepted (w_log s)).
Proof. exact pinv_run. Qed.
(** All requests keep their order and none waits if the user chooses the tags and all requests with payload are posted.
    Missing from the full statement: the other cases ([C50_tag_refuted], [C50_credit_refuted], [C50_order_refuted], [C50_extended_refuted]). *)
Theorem C50_reads_partial : forall o c ls s, o_client o = true -> 0 <= co_cpld (o_core o) -> urun o ls (udev0 c) = Ok s ->
  Forall dataless (accepted (w_log s)) ->
  settled (w_log s) = accepted (w_log s) /\ w_np s = [] /\ held_a (w_a s) = [] /\ w_b s = BIdle /\ w_credit s = 0.
Proof. exact oinv_run. Qed.
Example C50_ex : exists s, urun (io_opt us_core) [LFrame rd_frame; LSentA; LSeqOut; LFrame (wframe wr_req); LSentA] (udev0 (wcfg false)) = Ok s /\
  accepted (w_log s) = settled (w_log s) /\ map (fun u => fmt_type (u_tlp u)) (accepted (w_log s)) = [Ok MEM_READ; Ok MEM_WRITE] /\
  length (posted (accepted (w_log s))) = 1%nat /\ length (opened (w_log s)) = 1%nat /\ length (w_seqs s) = 1%nat.
Proof. eexists. vm_compute. repeat split. Qed.
(** A request that finds no free tag waits for ever: nothing sets [tag_release].  Nothing is outstanding, no other request waits. *)
Theorem C50_tag_refuted : forall co, co = us_core \/ co = usp_core -> exists ls s u, urun (core_opt co) ls (udev0 (wcfg false)) = Ok s /\
  opened (w_log s) = [] /\ w_rcq s = [] /\ w_np s = [] /\ w_credit s <= 33 /\ In u (accepted (w_log s)) /\
  forall ls' s', urun (core_opt co) ls' s = Ok s' -> w_b s' = BTag u.
Proof. exact us_tag_wait. Qed.
(** Credits are taken for the payload of a request and given back for the payload of its completions: IO writes use them up.  Then a
    request waits as long as no completions with data arrive, though nothing is outstanding and the buffer is empty. *)
Theorem C50_credit_refuted : forall co c, 1 <= co_cplh co -> 1 <= co_cpld co -> c = wcfg false -> exists ls s u,
  urun (io_opt co) ls (udev0 c) = Ok s /\ opened (w_log s) = [] /\ w_rcq s = [] /\ w_r s = RIdle /\ w_np s = [] /\ w_b s = BCredit u /\
  forall ls' s', Forall no_data ls' -> urun (io_opt co) ls' s = Ok s' -> w_b s' = BCredit u.
Proof. exact us_leak. Qed.
(** Requests that are not posted do not keep their order. *)
Theorem C50_order_refuted : forall co, co = us_core \/ co = usp_core -> exists ls s a u v, urun (core_opt co) ls (udev0 (wcfg false)) = Ok s /\
  accepted (w_log s) = a ++ [u; v] /\ needs_answer (u_tlp u) = true /\ needs_answer (u_tlp v) = true /\ u <> v /\
  map (untagged (core_opt co)) (settled (w_log s)) = map (untagged (core_opt co)) (a ++ [v]).
Proof. exact us_pass. Qed.
(** UltraScale, tags of the core, extended tags: the 65th outstanding request ends the coroutine with an exception. *)
Theorem C50_extended_refuted : exists ls s, urun (core_opt us_core) ls (udev0 (wcfg true)) = Ok s /\ length (opened (w_log s)) = 64%nat /\ w_a s = AIdle /\
  unpack_us_rq false rd_frame = Ok rd_req /\ tlp_check (tlp_copy (u_tlp rd_req)) = Ok true /\ ustep (core_opt us_core) (LFrame rd_frame) s = Err TypeError.
Proof. exact us_ext. Qed.

Print Assumptions C45_distinct.
Print Assumptions C45_shown.
Print Assumptions C45_user_tags_refuted.
Print Assumptions C46_arrival.
Print Assumptions C46_code.
Print Assumptions C46_split.
Print Assumptions C47_order.
Print Assumptions C47_kinds.
Print Assumptions C47_behind.
Print Assumptions C47_room.
Print Assumptions C47_delivered.
Print Assumptions C49_buffer.
Print Assumptions C49_told.
Print Assumptions C49_space_refuted.
Print Assumptions C50_accept.
Print Assumptions C50_requests.
Print Assumptions C50_sequence.
Print Assumptions C50_posted.
Print Assumptions C50_reads_partial.
Print Assumptions C50_tag_refuted.
Print Assumptions C50_credit_refuted.
Print Assumptions C50_order_refuted.
Print Assumptions C50_extended_refuted.
