(** The queues of the streams and their limits. *)
From Verif Require Import Base.

(** xilinx/us/interface.py:138-152, 262-288, 341-355, 389-417, 490-495, and the same in intel/s10/interface.py:210-221, 268-272, 353-378, 474-486, 513-534, 637-642 and
    intel/ptile/interface.py:228-239, 294-298, 387-412, 512-524, 551-572, 673-678: the queue, the two counters and the coroutines that wait in [send] for [dequeue_event],
    each with whether it has been woken since.  A frame is its data ([len(frame)], 95-96).  The lists [x_in] (all frames put into the queue), [x_out] (all taken out), [x_no] (refused by [send_nowait])
    are not in the code.  Not modelled: frames whose data is changed while they are queued. *)
Record qst := mkQs { x_queue : list (list Z); x_bytes : Z; x_frames : Z; x_wait : list (list Z * bool); x_in : list (list Z); x_out : list (list Z); x_no : list (list Z) }.
Definition qs_new : qst := mkQs [] 0 0 [] [] [] [].
(** interface.py:282-288, 411-417; [lb], [lf]: [queue_occupancy_limit_bytes], [queue_occupancy_limit_frames] *)
Definition q_full (lb lf : Z) (s : qst) : bool :=
  if (lb >? 0) && (x_bytes s >? lb) then true
  else if (lf >? 0) && (x_frames s >? lf) then true
  else false.
(** 267-271, 276-280, 490-495 *)
Definition q_put (f : list Z) (s : qst) : qst :=
  mkQs (x_queue s ++ [f]) (x_bytes s + zlen f) (x_frames s + 1) (x_wait s) (x_in s ++ [f]) (x_out s) (x_no s).
Definition q_waits (w : list (list Z * bool)) (s : qst) : qst := mkQs (x_queue s) (x_bytes s) (x_frames s) w (x_in s) (x_out s) (x_no s).
(** A call of [send] or [send_nowait], a woken [send] that goes on, a frame taken out ([_get_frame], [_get_frame_nowait] of a source, [recv], [recv_nowait] of a sink), [clear], and [_sink_frame].
    Each is what runs without giving up control.  [Queue.put] does not wait, since the queue has no limit of its own. *)
Inductive qlabel := QSend (f : list Z) | QSendNow (f : list Z) | QWake (n : nat) | QGet | QClear | QSink (f : list Z).
Definition remove_at {A} (n : nat) (l : list A) : list A := firstn n l ++ skipn (S n) l.
Definition q_step (lb lf : Z) (e : qlabel) (s : qst) : option qst :=
  match e with
  | QSend f => Some (if q_full lb lf s then q_waits (x_wait s ++ [(f, false)]) s else q_put f s)
  | QSendNow f => Some (if q_full lb lf s then mkQs (x_queue s) (x_bytes s) (x_frames s) (x_wait s) (x_in s) (x_out s) (x_no s ++ [f]) else q_put f s)
  | QWake n =>
    match nth_error (x_wait s) n with
    | Some (f, true) =>
      let s := q_waits (remove_at n (x_wait s)) s in
      Some (if q_full lb lf s then q_waits (x_wait s ++ [(f, false)]) s else q_put f s)
    | _ => None
    end
  | QGet =>
    match x_queue s with
    | f :: r => Some (mkQs r (x_bytes s - zlen f) (x_frames s - 1) (map (fun w => (fst w, true)) (x_wait s)) (x_in s) (x_out s ++ [f]) (x_no s))
    | [] => None
    end
  (** 179-183 *)
  | QClear => Some (mkQs [] (x_bytes s) (x_frames s) (x_wait s) (x_in s) (x_out s) (x_no s))
  | QSink f => Some (q_put f s)
  end.
Fixpoint q_run (lb lf : Z) (es : list qlabel) (s : qst) : option qst :=
  match es with [] => Some s | e :: r => match q_step lb lf e s with Some s => q_run lb lf r s | None => None end end.

(** The sinks of xilinx/us/interface.py: [_run_sink] (444-485), [_recv], [_dequeue] (392-409), the monitors of [tvalid] and [tready] and changes of [pause] (389-390, 430-442).
    [k_ready]: [tready]; [k_awake]: it waits for the clock, not for [wake_event].  The other counters are those above. *)
Record ksink := mkKs { k_q : qst; k_ready : bool; k_awake : bool }.
Definition ks_new : ksink := mkKs qs_new false true.
(** A clock edge with [tvalid], [pause] before it, whether that has changed since, and the frames that end in the word on the bus: [_run] puts them into the queue after [_run_sink] has looked at it.
    [KWake]: [tvalid] or [tready] rises, or [pause] changes. *)
Inductive klabel := KEdge (v p ch : bool) (fs : list (list Z)) | KRecv | KWake.
Definition k_step (lb lf : Z) (e : klabel) (s : ksink) : option ksink :=
  match e with
  | KEdge v p ch fs =>
    if k_awake s then
      let paused := q_full lb lf (k_q s) || p in
      let q := if k_ready s && v then fold_left (fun q f => q_put f q) fs (k_q s) else k_q s in
      Some (mkKs q (negb paused) (negb ((negb v || paused) && negb ch)))
    else Some s
  | KRecv => match q_step lb lf QGet (k_q s) with Some q => Some (mkKs q (k_ready s) true) | None => None end
  | KWake => Some (mkKs (k_q s) (k_ready s) true)
  end.
Fixpoint k_run (lb lf : Z) (es : list klabel) (s : ksink) : option ksink :=
  match es with [] => Some s | e :: r => match k_step lb lf e s with Some s => k_run lb lf r s | None => None end end.

(** The sinks of intel/s10/interface.py:547-578 and intel/ptile/interface.py:585-616 [_run_sink]; [n_delay]: [ready_delay], of the length [ready_latency], which does not change.
    [None]: the assertion about [valid] outside of ready cycles.  Not modelled: reset. *)
Record nsink := mkNs { n_q : qst; n_ready : bool; n_delay : list bool }.
Definition ns_new (latency : nat) : nsink := mkNs qs_new false (repeat false latency).
Inductive nlabel := NEdge (v p : bool) (fs : list (list Z)) | NRecv.
Definition n_step (lb lf : Z) (e : nlabel) (s : nsink) : option nsink :=
  match e with
  | NEdge v p fs =>
    let '(r, d) := match n_delay s with [] => (n_ready s, []) | b :: d => (b, d ++ [n_ready s]) end in
    let ready := negb (q_full lb lf (n_q s)) && negb p in
    if v && r then Some (mkNs (fold_left (fun q f => q_put f q) fs (n_q s)) ready d)
    else if v && negb (match n_delay s with [] => true | _ => false end) then None
    else Some (mkNs (n_q s) ready d)
  | NRecv => match q_step lb lf QGet (n_q s) with Some q => Some (mkNs q (n_ready s) (n_delay s)) | None => None end
  end.
Fixpoint n_run (lb lf : Z) (es : list nlabel) (s : nsink) : option nsink :=
  match es with [] => Some s | e :: r => match n_step lb lf e s with Some s => n_run lb lf r s | None => None end end.
