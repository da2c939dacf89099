(** intel/s10/interface.py and intel/ptile/interface.py: the handshake with ready latency between a source and a sink. *)
From Verif Require Import Base ModelUtils ModelChan.

(** The coroutines [_run] and [_run_source] of a source (s10 346-351, 386-421; ptile 380-385, 420-455) and [_run] and [_run_sink] of a sink
    (s10 547-577; ptile 585-615).  Parameters: what [_run] of either computes, as in ModelChan.v, whether a transaction sets [valid], and
    [ready_latency] (which does not change).  Not in reset. *)
Section Avst.
  Context {F B S K : Type} (lat : nat) (bvalid : B -> bool).
  Context (produce : S -> list F -> option (res (B * S * list F))) (consume : K -> B -> res (K * list F)).
  Record avst := mkAvst {
    v_queue : list F;      (* the queue of the source *)
    v_src : S;             (* the variables of its _run *)
    v_pend : option B;     (* a transaction waiting in _drive *)
    v_drive : option B;    (* drive_obj *)
    v_valid : bool;        (* valid is not 0 *)
    v_bus : option B;      (* the signals other than ready *)
    v_sdel : list bool;    (* ready_delay of the source *)
    v_ready : bool;        (* ready *)
    v_kdel : list bool;    (* ready_delay of the sink *)
    v_sample : option B;   (* sample_obj *)
    v_sink : K;            (* the variables of the _run of the sink *)
    v_recv : list F }.     (* all frames ever put into the queue of the sink *)
  Definition avst0 (s : S) (k : K) : avst := mkAvst [] s None None false None [] false [] None k [].
  Inductive avst_op :=
  | VSend (f : F)                    (* send, send_nowait *)
  | VRun                             (* _run of the source makes a transaction *)
  | VDrive                           (* ... and hands it to _run_source *)
  | VEdge (spause paused : bool)     (* a rising edge of the clock; paused: self.full() or self.pause of the sink *)
  | VSink.                           (* _run of the sink takes the sample *)
  (** [ready_delay] is made anew when its length is wrong; [append], then [pop(0)] *)
  Definition delay (n : nat) (l : list bool) : list bool := if Nat.eqb (length l) n then l else repeat false n.
  Definition shift (n : nat) (l : list bool) (r : bool) : bool * list bool :=
    match delay n l ++ [r] with x :: l => (x, l) | [] => (r, []) end.
  (** s10 392-421, ptile 426-455; the list is used for latencies above 1 *)
  Definition asrc_edge (spause : bool) (c : avst) : avst :=
    let '(r, sd) := if Nat.ltb 1 lat then shift (lat - 1) (v_sdel c) (v_ready c) else (v_ready c, v_sdel c) in
    let '(d, v, bus) :=
      if (r && v_valid c) || negb (v_valid c) || Nat.ltb 0 lat then
        match v_drive c with
        | Some b => if negb spause && (r || Nat.eqb lat 0) then (None, bvalid b, Some b) else (Some b, false, v_bus c)
        | None => (None, false, v_bus c)
        end
      else (v_drive c, v_valid c, v_bus c) in
    mkAvst (v_queue c) (v_src c) (v_pend c) d v bus sd (v_ready c) (v_kdel c) (v_sample c) (v_sink c) (v_recv c).
  (** s10 552-577, ptile 590-615; [v], [b]: valid and the bus before the edge *)
  Definition asink_edge (v : bool) (b : option B) (paused : bool) (c : avst) : res avst :=
    let '(r, kd) := if Nat.ltb 0 lat then shift lat (v_kdel c) (v_ready c) else (v_ready c, v_kdel c) in
    sm <- (if v && r then Ok b
           else if Nat.ltb 0 lat then _ <- py_assert (negb v) ;; Ok (v_sample c)
           else Ok (v_sample c)) ;;
    Ok (mkAvst (v_queue c) (v_src c) (v_pend c) (v_drive c) (v_valid c) (v_bus c) (v_sdel c) (negb paused) kd sm (v_sink c) (v_recv c)).
  (** [None]: not possible now.  As in ModelChan.v the clock does not advance while the sink has a sample to take. *)
  Definition avst_step (c : avst) (o : avst_op) : option (res avst) :=
    match o with
    | VSend f => Some (Ok (mkAvst (v_queue c ++ [f]) (v_src c) (v_pend c) (v_drive c) (v_valid c) (v_bus c) (v_sdel c) (v_ready c) (v_kdel c) (v_sample c) (v_sink c) (v_recv c)))
    | VRun =>
      match v_pend c with
      | Some _ => None
      | None =>
        match produce (v_src c) (v_queue c) with
        | None => None
        | Some r => Some ('(b, s, q) <- r ;; Ok (mkAvst q s (Some b) (v_drive c) (v_valid c) (v_bus c) (v_sdel c) (v_ready c) (v_kdel c) (v_sample c) (v_sink c) (v_recv c)))
        end
      end
    | VDrive =>
      match v_pend c, v_drive c with
      | Some b, None => Some (Ok (mkAvst (v_queue c) (v_src c) None (Some b) (v_valid c) (v_bus c) (v_sdel c) (v_ready c) (v_kdel c) (v_sample c) (v_sink c) (v_recv c)))
      | _, _ => None
      end
    | VEdge spause paused =>
      if is_none (v_sample c) then Some (asink_edge (v_valid c) (v_bus c) paused (asrc_edge spause c)) else None
    | VSink =>
      match v_sample c with
      | None => None
      | Some b => Some ('(k, fs) <- consume (v_sink c) b ;; Ok (mkAvst (v_queue c) (v_src c) (v_pend c) (v_drive c) (v_valid c) (v_bus c) (v_sdel c) (v_ready c) (v_kdel c) None k (v_recv c ++ fs)))
      end
    end.
  Fixpoint avst_run (c : avst) (os : list avst_op) : option (res avst) :=
    match os with
    | [] => Some (Ok c)
    | o :: os => match avst_step c o with Some (Ok c) => avst_run c os | x => x end
    end.
  (** frames handed to [send] *)
  Definition avst_sent (os : list avst_op) : list F := flat_map (fun o => match o with VSend f => [f] | _ => [] end) os.
End Avst.
Arguments avst : clear implicits.
Arguments avst_op : clear implicits.
