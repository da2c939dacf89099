(** C71: the queues of the streams and their limits. *)
From Verif Require Import Base ModelQueue SpecQueue ProofsQueue.
From Coq Require Import Permutation.

(** Unless [clear] is called, the counters are those of the queue's content, and frames come out in the order in which they went in. *)
Theorem C71_count_partial : forall lb lf es s, ~ In QClear es -> q_run lb lf es qs_new = Some s ->
  x_bytes s = total (x_queue s) /\ x_frames s = zlen (x_queue s) /\ x_out s ++ x_queue s = x_in s.
Proof. exact counts. Qed.
(** Every frame given to a source or sink is put into the queue once, or its [send] still waits, or [send_nowait] has refused it. *)
Theorem C71_kept : forall lb lf es s, q_run lb lf es qs_new = Some s -> Permutation (x_in s ++ map fst (x_wait s) ++ x_no s) (given es).
Proof. exact kept. Qed.
(** A source's queue exceeds its limits by one frame at most.  [M]: the length of the longest frame.  Missing: the queue as long as the limits say ([C71_limit_refuted]); sinks, which put in what is on its way. *)
Theorem C71_limit_partial : forall lb lf M es s, 0 <= M -> ~ In QClear es -> forallb (fun e => negb (sink_label e)) es = true -> Forall (fun f => zlen f <= M) (given es) ->
  q_run lb lf es qs_new = Some s -> (0 < lb -> total (x_queue s) <= lb + M) /\ (0 < lf -> zlen (x_queue s) <= lf + 1).
Proof. exact limits. Qed.
(** Unless [clear] is called, a [send] waits only while there is a frame to take out, and any of those that wait goes on once the frames are taken out. *)
Theorem C71_served_partial : forall lb lf es s n f w, ~ In QClear es -> q_run lb lf es qs_new = Some s -> nth_error (x_wait s) n = Some (f, w) ->
  (w = false -> x_queue s <> []) /\
  exists s', q_run lb lf (repeat QGet (length (x_queue s)) ++ [QWake n]) s = Some s' /\ x_queue s' = [f] /\ x_in s' = x_in s ++ [f].
Proof. exact served. Qed.

(** The limit of the device models, 2 frames (us_model.py:417): there are 3. *)
Theorem C71_limit_refuted : exists es s, ~ In QClear es /\ q_run (-1) 2 es qs_new = Some s /\ zlen (x_queue s) > 2.
Proof.
  exists [QSend [1]; QSend [2]; QSend [3]]. eexists. split; [|split; [reflexivity|reflexivity]]. cbn. intuition discriminate.
Qed.
(** [clear] does not set the counters: a source that was full when it was cleared has an empty queue, and never takes a frame again. *)
Theorem C71_clear_refuted : exists es s, q_run (-1) 2 es qs_new = Some s /\ x_queue s = [] /\ zlen (x_queue s) < x_frames s /\
  forall es' s', forallb (fun e => negb (sink_label e)) es' = true -> q_run (-1) 2 es' s = Some s' -> x_queue s' = [] /\ x_in s' = x_in s.
Proof.
  exists [QSend [1]; QSend [2]; QSend [3]; QClear]. eexists. split; [reflexivity|]. split; [reflexivity|]. split; [reflexivity|].
  intros es' s' S H. apply dead_run in H; [|exact S|split; reflexivity]. destruct H as [[A _] B]. split; assumption.
Qed.

(** A fourth frame waits, and goes in when one has been taken out; a fifth is refused. *)
Example C71_ex : match q_run (-1) 2 [QSend [1]; QSend [2; 2]; QSend [3]; QSend [4]; QSendNow [5]] qs_new with
  | Some s => x_queue s = [[1]; [2; 2]; [3]] /\ x_bytes s = 4 /\ x_wait s = [([4], false)] /\ x_no s = [[5]] /\
      match q_run (-1) 2 [QGet; QWake 0] s with
      | Some s => x_queue s = [[2; 2]; [3]; [4]] /\ x_out s = [[1]] /\ x_wait s = []
      | None => False
      end
  | None => False
  end.
Proof. vm_compute. repeat split. Qed.
Example C71_bytes_ex : match q_run 3 (-1) [QSend [1; 1]; QSend [2; 2; 2]; QSend [3]] qs_new with
  | Some s => x_queue s = [[1; 1]; [2; 2; 2]] /\ x_wait s = [([3], false)] | None => False end.
Proof. vm_compute. split; reflexivity. Qed.

(** ** The sinks of the UltraScale streams *)
(** Their counters, order and limit: at most [k] frames end in a word, and up to two words arrive after the limit is reached.  Missing: the queue as long as the limit says ([C71_sink_refuted]). *)
Theorem C71_sink_partial : forall lb lf k es s, 0 <= k -> Forall (at_most k) es -> k_run lb lf es ks_new = Some s ->
  x_bytes (k_q s) = total (x_queue (k_q s)) /\ x_frames (k_q s) = zlen (x_queue (k_q s)) /\ x_out (k_q s) ++ x_queue (k_q s) = x_in (k_q s) /\
  (0 < lf -> zlen (x_queue (k_q s)) <= lf + 2 * k).
Proof. exact sink_limit. Qed.
(** A sink that is neither full nor paused becomes ready with the next clock edge: no wakeup is lost. *)
Theorem C71_sink_ready : forall lb lf es s, Forall unpaused es -> k_run lb lf es ks_new = Some s -> q_full lb lf (k_q s) = false -> k_ready s = false ->
  forall v ch fs, exists s', k_step lb lf (KEdge v false ch fs) s = Some s' /\ k_ready s' = true /\ k_q s' = k_q s.
Proof. exact sink_free. Qed.
(** One frame in each word, a limit of 2: there are 4 frames, which is what the bound allows. *)
Definition words4 : list klabel := [KEdge true false false []; KEdge true false false [[1]]; KEdge true false false [[2]]; KEdge true false false [[3]]; KEdge true false false [[4]]; KWake; KEdge true false false [[5]]].
Theorem C71_sink_refuted : exists es s, Forall (at_most 1) es /\ k_run (-1) 2 es ks_new = Some s /\ zlen (x_queue (k_q s)) = 2 + 2 * 1 /\ k_ready s = false.
Proof.
  exists words4. eexists. split; [|split; [vm_compute; reflexivity|split; reflexivity]].
  unfold words4. repeat constructor; cbn; discriminate.
Qed.
(** It sleeps then; two frames are taken out, and it is ready again. *)
Example C71_sink_ex : match k_run (-1) 2 (words4 ++ [KRecv; KRecv]) ks_new with
  | Some s => x_queue (k_q s) = [[3]; [4]] /\ q_full (-1) 2 (k_q s) = false /\ k_ready s = false /\
      match k_step (-1) 2 (KEdge true false false [[5]]) s with Some s => k_ready s = true | None => False end
  | None => False end.
Proof. vm_compute. repeat split. Qed.

(** The user sets and clears [pause] at any time: two clock edges later the sink is ready, if it is not full, or is not. *)
Theorem C71_sink_unpaused : forall lb lf es s smp, follow lb lf es ks_new false false = Some (s, smp, false) -> q_full lb lf (k_q s) = false -> k_ready s = false ->
  forall v p ch fs v' p' ch' fs' r, follow lb lf [Other (KEdge v p ch fs); Other (KEdge v' p' ch' fs')] s smp false = Some r -> k_ready (fst (fst r)) = true.
Proof. exact sink_unpaused. Qed.
Theorem C71_sink_paused : forall lb lf es s smp, follow lb lf es ks_new false false = Some (s, smp, true) ->
  forall v p ch fs v' p' ch' fs' r, follow lb lf [Other (KEdge v p ch fs); Other (KEdge v' p' ch' fs')] s smp true = Some r -> k_ready (fst (fst r)) = false.
Proof. exact sink_paused. Qed.
(** [pause] is set and cleared while the sink sleeps.  In the second run it is set and cleared while the sink waits for the clock. *)
Definition pauses : list pevent := [Other (KEdge false false false []); PauseTo true; Other (KEdge true true false []); PauseTo false].
Example C71_sink_pause_ex :
  match follow (-1) 2 pauses ks_new false false with
  | Some (s, smp, pause) => k_ready s = false /\ smp = false /\ pause = false /\
      match follow (-1) 2 [Other (KEdge true false false []); Other (KEdge true false false [])] s smp pause with Some (s, _, _) => k_ready s = true | None => False end
  | None => False end.
Proof. vm_compute. repeat split. Qed.
Example C71_sink_pause_late_ex :
  match follow (-1) 2 [PauseTo true; Other (KEdge true false true []); PauseTo false; Other (KEdge true true true [[1]])] ks_new false false with
  | Some (s, smp, pause) => k_ready s = false /\ k_awake s = true /\ x_queue (k_q s) = [[1]] /\ smp = false /\ pause = false | None => False end.
Proof. vm_compute. repeat split. Qed.

(** ** The sinks of the Intel streams *)
(** As many words more can arrive as the ready latency says.  Missing: as above. *)
Theorem C71_intel_partial : forall lb lf k latency es s, 0 <= k -> Forall (at_most_n k) es -> n_run lb lf es (ns_new latency) = Some s ->
  x_bytes (n_q s) = total (x_queue (n_q s)) /\ x_frames (n_q s) = zlen (x_queue (n_q s)) /\ x_out (n_q s) ++ x_queue (n_q s) = x_in (n_q s) /\
  (0 < lf -> zlen (x_queue (n_q s)) <= lf + k * (Z.of_nat latency + 2)).
Proof. exact intel_sink_limit. Qed.
(** The latency of Stratix 10 and P-Tile, 3 cycles (s10_model.py:335), and their limit of 2: there are 7 frames, which is what the bound allows. *)
Definition words7 : list nlabel := repeat (NEdge false false []) 4 ++ map (fun n => NEdge true false [[n]]) [1; 2; 3; 4; 5; 6; 7].
Theorem C71_intel_refuted : exists es s, Forall (at_most_n 1) es /\ n_run (-1) 2 es (ns_new 3) = Some s /\ zlen (x_queue (n_q s)) = 2 + 1 * (3 + 2) /\
  forall p, n_step (-1) 2 (NEdge true p [[8]]) s = None.
Proof.
  exists words7. eexists. split; [|split; [vm_compute; reflexivity|split; [reflexivity|intros [|]; reflexivity]]].
  unfold words7. cbn [repeat app map]. repeat constructor; cbn; discriminate.
Qed.

Print Assumptions C71_count_partial.
Print Assumptions C71_kept.
Print Assumptions C71_limit_partial.
Print Assumptions C71_served_partial.
Print Assumptions C71_limit_refuted.
Print Assumptions C71_clear_refuted.
Print Assumptions C71_sink_partial.
Print Assumptions C71_sink_ready.
Print Assumptions C71_sink_refuted.
Print Assumptions C71_sink_unpaused.
Print Assumptions C71_sink_paused.
Print Assumptions C71_intel_partial.
Print Assumptions C71_intel_refuted.
