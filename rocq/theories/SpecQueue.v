(** Vocabulary for the queues. *)
From Verif Require Import Base ModelQueue.

(** The frames given to [send], [send_nowait] or [_sink_frame] *)
Definition given (es : list qlabel) : list (list Z) :=
  flat_map (fun e => match e with QSend f | QSendNow f | QSink f => [f] | _ => [] end) es.
Definition sink_label (e : qlabel) : bool := match e with QSink _ => true | _ => false end.
Definition total (l : list (list Z)) : Z := zlen (concat l).
(** At most [k] frames end in a word. *)
Definition at_most (k : Z) (e : klabel) : Prop := match e with KEdge _ _ _ fs => zlen fs <= k | _ => True end.
Definition unpaused (e : klabel) : Prop := match e with KEdge _ p _ _ => p = false | _ => True end.
Definition at_most_n (k : Z) (e : nlabel) : Prop := match e with NEdge _ _ fs => zlen fs <= k | _ => True end.

(** The user sets [pause], or something else happens to an UltraScale sink. *)
Inductive pevent := PauseTo (b : bool) | Other (e : klabel).
(** What the sink is told: a change of [pause] sets [wake_event]. *)
Definition told (pause : bool) (e : pevent) : list klabel := match e with PauseTo b => if Bool.eqb pause b then [] else [KWake] | Other e => [e] end.
(** [smp]: [pause] as the sink has read it when it began to wait for the clock; [pause]: as it is.  The labels of the edges say so, and the sink reads it again after an edge and when it is woken.
    [follow] gives the state after the events. *)
Fixpoint follow (lb lf : Z) (es : list pevent) (s : ksink) (smp pause : bool) : option (ksink * bool * bool) :=
  match es with
  | [] => Some (s, smp, pause)
  | e :: r =>
    let now := match e with PauseTo b => b | _ => pause end in
    let right := match e with Other (KEdge _ p ch _) => negb (k_awake s) || (Bool.eqb p smp && Bool.eqb ch (xorb smp pause)) | _ => true end in
    if right then
      match k_run lb lf (told pause e) s with
      | Some s' => follow lb lf r s' (match e with Other (KEdge _ _ _ _) => now | _ => if k_awake s then smp else now end) now
      | None => None
      end
    else None
  end.
