(** C56: the interrupt interfaces of the device models. *)
From Verif Require Import Base ModelUtils ModelTlp ModelAttrs ModelCaps ModelCapList ModelConfig ModelMsi ModelTlCfg ModelUsCfg ModelVendorInt
  SpecRegs SpecCaps SpecConfig SpecTlCfg SpecUsCfg SpecVendorInt ProofsTlCfg ProofsVendorInt.

(** ** The message *)
(** The message has the address and data the host has set up, with the number in the bits the host has enabled; it is issued exactly if the host allows it. *)
Theorem C56_message : forall f n, msi_ok (w_ms f) -> counts_ok (w_ms f) ->
  match issue_msi (w_ms f) n with Ok (a, d) => msi_allowed f n /\ msi_message f n a d | Err _ => ~ msi_allowed f n end.
Proof. exact msi_issued. Qed.
(** The conditions hold at the start and are kept by the host's writes (for [msi_ok]: C54_msi_start, C54_msi_kept). *)
Theorem C56_message_start : counts_ok (aset ms_msi_64bit_address_capable 1 (aset ms_msi_per_vector_mask_capable 0 msc_init)).
Proof. constructor; vm_compute; split; congruence. Qed.
Theorem C56_message_kept : forall s reg data be, counts_ok s -> counts_ok (msc_write reg data be s).
Proof. exact counts_write. Qed.

Definition z : attrs := fun _ => 0.
Definition ms_new : attrs := aset ms_msi_64bit_address_capable 1 (aset ms_msi_per_vector_mask_capable 0 (aset ms_msi_multiple_message_capable 5 msc_init)).
Definition ms_on : attrs := msc_write 3 0x1237 0xf (msc_write 2 0xab 0xf (msc_write 1 0xfee00000 0xf (msc_write 0 0x00310000 0xf ms_new))).
Definition mx_on : attrs := mxc_write 0 0x80000000 0xf z.
Definition f_off : cfn := mkCfn (mkId 5 0 0) z z z ms_new z z.
Definition f_on : cfn := mkCfn (mkId 5 0 1) z z z ms_on mx_on z.
(** The host has enabled eight messages with data 0x1237: message 2 has data 0x1232, message 8 cannot be sent. *)
Example C56_message_ex : msi_ok (w_ms f_on) /\ counts_ok (w_ms f_on) /\ msi_allowed f_on 2 /\ issue_msi (w_ms f_on) 2 = Ok (0xabfee00000, [0x32; 0x12; 0; 0]) /\
  issue_msi (w_ms f_on) 8 = Err ValueError /\ ~ msi_allowed f_on 8 /\ issue_msi (w_ms f_off) 0 = Err PyException.
Proof.
  assert (A : msi_ok (w_ms f_on)).
  { repeat (apply msi_write_ok; [lia|lia|]). constructor; vm_compute; repeat match goal with |- _ /\ _ => split end; congruence. }
  assert (B : counts_ok (w_ms f_on)) by (constructor; vm_compute; split; congruence).
  split; [exact A|]. split; [exact B|]. split; [vm_compute; repeat split; congruence|]. split; [vm_compute; reflexivity|]. split; [vm_compute; reflexivity|].
  split; [|vm_compute; reflexivity]. exact (msi_issued f_on 8 A B).
Qed.

(** ** UltraScale *)
(** Every run that begins and ends between two requests consists of samples of the inputs and accesses of others.  A sample with one vector sends one MSI, one
    with MSI-X one MSI-X message, in this order, and the acknowledgements are seen as [sample] says. *)
Theorem C56_us_all : forall plus es s t s', wide es -> i_ph s = IIdle -> int_run plus es s = Some (t, s') -> i_ph s' = IIdle ->
  exists l m fs', Forall seg_wide l /\ es = flat_map iseg_events l /\
    isegs_do l (i_fns s) (o_sent (i_out s), o_xsent (i_out s)) = Some (t, m, fs', (o_sent (i_out s'), o_xsent (i_out s'))) /\ i_fns s' = fs' /\ i_log s' = i_log s ++ m.
Proof. intros plus es [ph o fs lg] t s' W P R P'. cbn [i_ph] in P. subst ph. exact (int_all plus (length es) es o fs lg t s' (le_n _) W R P'). Qed.
(** All of these are possible: a request the host allows is served. *)
Theorem C56_us_runs : forall plus l s t m fs' y, Forall seg_wide l -> i_ph s = IIdle -> isegs_do l (i_fns s) (o_sent (i_out s), o_xsent (i_out s)) = Some (t, m, fs', y) ->
  exists s', int_run plus (flat_map iseg_events l) s = Some (t, s') /\ i_ph s' = IIdle /\ i_fns s' = fs' /\ i_log s' = i_log s ++ m.
Proof.
  intros plus l [ph o fs lg] t m fs' y W P E. cbn [i_ph] in P. subst ph. destruct (int_fwd plus l o fs lg t m fs' y W E) as (o' & R & _).
  exists (mkIst IIdle o' fs' (lg ++ m)). auto.
Qed.
(** As long as there are requests of only one kind, each message is acknowledged in exactly one cycle. *)
Theorem C56_us_once_partial : forall plus x es s t s', wide es -> Forall (kind_only x) es -> i_ph s = IIdle -> int_run plus es s = Some (t, s') -> i_ph s' = IIdle ->
  sum (map (ack_of x) t) + ack_of x (o_sent (i_out s'), o_xsent (i_out s')) = ack_of x (o_sent (i_out s), o_xsent (i_out s)) + (zlen (i_log s') - zlen (i_log s)).
Proof. exact once. Qed.
(** The other outputs show the registers as the host sees them, for the first two functions (MSI-X: UltraScale+ four). *)
Theorem C56_us_outputs_partial : forall (plus : bool) i a b s t m fs' y, 0 <= i_msi i < 2 ^ 32 -> i_ph s = IIdle ->
  sample i a b (i_fns s) (o_sent (i_out s), o_xsent (i_out s)) = Some (t, m, fs', y) ->
  exists s', int_run plus (iseg_events (GSample i a b)) s = Some (t, s') /\ i_ph s' = IIdle /\ i_fns s' = fs' /\ i_log s' = i_log s ++ m /\
    outputs_show (if plus then 4%nat else 2%nat) i (i_fns s) (after_wait a (i_fns s)) (pending i (after_wait a (i_fns s))) (i_out s').
Proof. exact sample_outputs. Qed.
(** The pending bits the user logic sets are what the host reads, and nothing else changes. *)
Theorem C56_us_pending : forall i fs k f, i_pen i = true -> nth_error fs k = Some f -> exists f', nth_error (pending i fs) k = Some f' /\
  (k <> i_pfn i -> f' = f) /\
  (k = i_pfn i -> (forall x r, x <> InMs -> host_reads f' x r = host_reads f x r) /\
    forall r, host_reads f' InMs r = if (r =? (if Z.testbit (msi_word f 0) 23 then 5 else 4)) && Z.testbit (msi_word f 0) 24 then Some (Z.land (i_pend i) 0xffffffff) else host_reads f InMs r).
Proof. exact pending_read. Qed.

Definition o0 : iout := mkIout 0 0 0 0 0 0 0.
Definition quiet : iin := mkIin 0 0 0 15 false 0 0 false 0 0.
Definition ask (v : Z) (k : nat) : iin := mkIin v k 0 1 false 0 0 false 0 0.
Definition ask_x (k : nat) : iin := mkIin 0 k 0 0 false 0 0 true 0xfee00010 0x55.
Definition s0 : ist := mkIst IIdle o0 [f_off; f_on] [].
(** The MSI waits for two edges; the MSI-X is sent at once. *)
Definition segs_ex : list iseg := [GSample (ask 4 1) (Some [WEdge quiet; WEdge quiet]) None; GSample quiet None None; GSample (ask_x 1) None (Some []); GSample quiet None None].
Example C56_us_ex : Forall seg_wide segs_ex /\ wide (flat_map iseg_events segs_ex) /\
  exists s', int_run false (flat_map iseg_events segs_ex) s0 = Some ([(0, 0); (0, 0); (0, 0); (1, 0); (0, 0); (0, 1)], s') /\ i_ph s' = IIdle /\
    i_log s' = [mkIm 1 0 0xabfee00000 [0x32; 0x12; 0; 0]; mkIm 1 0 0xfee00010 [0x55; 0; 0; 0]] /\ i_out s' = mkIout 2 0 0x18 0 2 0 0.
Proof.
  split; [repeat constructor; cbn; lia|]. split; [repeat constructor; cbn; lia|]. eexists. split; [vm_compute; reflexivity|]. repeat split.
Qed.
Example C56_us_once_ex : Forall (kind_only false) (flat_map iseg_events [GSample (ask 4 1) (Some [WEdge quiet]) None; GSample quiet None None]) /\
  exists s', int_run true (flat_map iseg_events [GSample (ask 4 1) (Some [WEdge quiet]) None; GSample quiet None None]) s0 = Some ([(0, 0); (0, 0); (1, 0)], s') /\ zlen (i_log s') = 1.
Proof. split; [repeat constructor|]. eexists. split; vm_compute; reflexivity. Qed.
Example C56_us_pending_ex : let f := mkCfn (mkId 5 0 0) z z z (aset ms_msi_per_vector_mask_capable 1 ms_on) z z in
  Z.testbit (msi_word f 0) 23 = true /\ Z.testbit (msi_word f 0) 24 = true /\
  map (fun f => host_reads f InMs 5) (pending (mkIin 0 0 0 15 true 1 0x80000001 false 0 0) [f_on; f]) = [None; Some 0x80000001].
Proof. vm_compute. repeat split. Qed.
(** An MSI and an MSI-X request in the same cycle: if the MSI-X has to wait, the acknowledgement of the one MSI is seen in two cycles. *)
Theorem C56_us_once_refuted : exists s es t s', wide es /\ i_ph s = IIdle /\ int_run false es s = Some (t, s') /\ i_ph s' = IIdle /\
  length (filter (fun m => im_addr m =? 0xabfee00000) (i_log s')) = 1%nat /\ sum (map fst t) = 2.
Proof.
  exists s0, (flat_map iseg_events [GSample (mkIin 4 1 0 15 false 0 0 true 0xfee00010 0x55) (Some []) (Some [WEdge quiet]); GSample quiet None None]).
  eexists. eexists. split; [repeat constructor; cbn; lia|]. split; [reflexivity|]. split; [vm_compute; reflexivity|]. repeat split.
Qed.
(** A request the host does not allow, here because MSI is not enabled, is never answered, nor is any later one: [fail] is not set and the coroutine has ended. *)
Theorem C56_us_dead_refuted : exists s i, i_ph s = IIdle /\ vector (i_msi i) = Some 0 /\ forall plus l t s', int_run plus (IEdge i :: l) s = Some (t, s') ->
  i_log s' = i_log s /\ t = repeat (0, 0) (length t) /\ o_sent (i_out s') = 0.
Proof.
  exists s0, (ask 1 0). split; [reflexivity|]. split; [vm_compute; reflexivity|]. intros plus l t s' R. cbn [int_run] in R.
  destruct (int_run plus l (int_edge plus (ask 1 0) s0)) as [[t1 s1]|] eqn:E; [|discriminate]. injection R as <- <-.
  assert (D : int_edge plus (ask 1 0) s0 = mkIst (IDead PyException) (mkIout 2 0 0 0 0 0 0) [f_off; f_on] []) by (vm_compute; reflexivity). rewrite D in E.
  destruct (int_dead_run _ _ _ _ _ _ _ _ E) as (_ & A & B & C). split; [exact A|]. split; [|rewrite B; reflexivity]. cbn [length repeat]. f_equal. exact C.
Qed.
(** UltraScale+ has four functions and four bits for MSI enable: the bits of functions 2 and 3 are never set. *)
Theorem C56_usp_enable_refuted : exists s s', i_ph s = IIdle /\ length (i_fns s) = 4%nat /\ int_run true [IEdge quiet] s = Some ([(0, 0)], s') /\
  i_ph s' = IIdle /\ ~ shows_bits 4 InMs 16 (i_fns s) (o_en (i_out s')).
Proof.
  exists (mkIst IIdle o0 [f_off; f_off; f_on; f_off] []). eexists. split; [reflexivity|]. split; [reflexivity|]. split; [vm_compute; reflexivity|]. split; [reflexivity|].
  intros (_ & V). specialize (V 2%nat ltac:(lia)). vm_compute in V. discriminate.
Qed.

(** ** Stratix 10 *)
(** Every run that begins and ends between two requests consists of quiet edges, accesses of others, and handshakes.  Each handshake sends one message and is
    acknowledged at exactly one edge, the first one after the message is sent. *)
Theorem C56_s10_all : forall es s t s', a_ph s = AIdle -> a_ack s = false -> s10_run es s = Some (t, s') -> a_ph s' = AIdle ->
  exists l m fs', Forall hseg_ok l /\ es = flat_map hseg_events l /\ hsegs_do l (a_fns s) = Some (t, m, fs') /\ s' = mkSst AIdle false fs' (a_log s ++ m).
Proof. intros es [ph a fs lg] t s' P A R P'. cbn [a_ph a_ack] in P, A. subst ph a. exact (s10_all (length es) es fs lg t s' (le_n _) R P'). Qed.
Theorem C56_s10_runs : forall l s t m fs', Forall hseg_ok l -> a_ph s = AIdle -> a_ack s = false -> hsegs_do l (a_fns s) = Some (t, m, fs') ->
  s10_run (flat_map hseg_events l) s = Some (t, mkSst AIdle false fs' (a_log s ++ m)).
Proof. intros l [ph a fs lg] t m fs' W P A E. cbn [a_ph a_ack] in P, A. subst ph a. exact (s10_fwd l fs lg t m fs' W E). Qed.
Definition req (n : Z) : sin := mkSin true 1 n 0.
Definition low : sin := mkSin false 0 0 0.
Example C56_s10_ex : Forall hseg_ok [HQuiet (VEdge low); HMsg (req 2) [VEdge (req 2)] [VEdge (req 2)] low; HMsg (req 3) [] [] low] /\
  s10_run (flat_map hseg_events [HQuiet (VEdge low); HMsg (req 2) [VEdge (req 2)] [VEdge (req 2)] low; HMsg (req 3) [] [] low]) (mkSst AIdle false [f_off; f_on] []) =
    Some ([false; false; false; true; false; false; true], mkSst AIdle false [f_off; f_on] [mkIm 1 0 0xabfee00000 [0x32; 0x12; 0; 0]; mkIm 1 0 0xabfee00000 [0x33; 0x12; 0; 0]]).
Proof. split; [repeat constructor|vm_compute; reflexivity]. Qed.
(** A request the host does not allow, or for a function that does not exist, is never answered, nor is any later one. *)
Theorem C56_s10_dead_refuted : exists s i, a_ph s = AIdle /\ a_ack s = false /\ a_req i = true /\ forall l t s', s10_run (SEdge i :: l) s = Some (t, s') -> a_log s' = a_log s /\ ~ In true t.
Proof.
  exists (mkSst AIdle false [f_off] []), (mkSin true 0 0 0). do 3 (split; [reflexivity|]). intros l t s' R. cbn [s10_run] in R.
  destruct (s10_run l (s10_edge _ _)) as [[t1 s1]|] eqn:E; [|discriminate]. injection R as <- <-.
  change (s10_edge _ _) with (mkSst (ADead PyException) false [f_off] []) in E. destruct (s10_dead _ _ _ _ _ _ _ E) as (A & B). split; [exact A|]. intros [X|X]; [discriminate|].
  rewrite B in X. apply repeat_spec in X. discriminate.
Qed.

Print Assumptions C56_message.
Print Assumptions C56_message_start.
Print Assumptions C56_message_kept.
Print Assumptions C56_us_all.
Print Assumptions C56_us_runs.
Print Assumptions C56_us_once_partial.
Print Assumptions C56_us_outputs_partial.
Print Assumptions C56_us_pending.
Print Assumptions C56_us_once_refuted.
Print Assumptions C56_us_dead_refuted.
Print Assumptions C56_usp_enable_refuted.
Print Assumptions C56_s10_all.
Print Assumptions C56_s10_runs.
Print Assumptions C56_s10_dead_refuted.
