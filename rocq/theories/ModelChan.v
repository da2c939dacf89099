(** xilinx/us/interface.py:221-497: the handshake between a source and a sink on one AXI stream. *)
From Verif Require Import Base ModelUtils.

(** [range(n)], [l[i]] for [i] not negative *)
Definition zrange (n : Z) : list Z := map Z.of_nat (List.seq 0 (Z.to_nat n)).
Definition zidx (l : list Z) (i : Z) : res Z := match nth_error l (Z.to_nat i) with Some v => Ok v | None => Err IndexError end.

(** The coroutines of a source ([_run], [_run_source]) and of a sink ([_run], [_run_sink], the monitors of tvalid and tready), with what
    [_run] of either computes as parameters: [produce] makes the next transaction from the queue, or waits ([None]); [consume] takes a
    transaction and yields the frames put into the queue of the sink. *)
Section Chan.
  Context {F B S K : Type}.
  Context (produce : S -> list F -> option (res (B * S * list F))) (consume : K -> B -> res (K * list F)).
  Record chan := mkChan {
    c_queue : list F;      (* the queue of the source *)
    c_src : S;             (* the variables of its _run *)
    c_pend : option B;     (* a transaction waiting in _drive (255-261) *)
    c_drive : option B;    (* drive_obj *)
    c_valid : bool;        (* tvalid *)
    c_bus : option B;      (* tdata, tlast, tkeep, tuser *)
    c_swait : bool;        (* _run_source waits for bus_active_event (338) *)
    c_ready : bool;        (* tready *)
    c_kwait : bool;        (* _run_sink waits for wake_event (485) *)
    c_sample : option B;   (* sample_obj *)
    c_sink : K;            (* the variables of the _run of the sink *)
    c_recv : list F }.     (* all frames ever put into the queue of the sink *)
  Definition chan0 (s : S) (k : K) : chan := mkChan [] s None None false None false false false None k [].
  Inductive chan_op :=
  | OSend (f : F)                                (* send, send_nowait (263-280) *)
  | ORun                                         (* _run of the source makes a transaction *)
  | ODrive                                       (* ... and hands it to _run_source *)
  | OEdge (spause paused sleep : bool)           (* a rising edge of the clock *)
  | OSink                                        (* _run of the sink takes the sample *)
  | OWake.                                       (* pause changes or a frame is taken (389-401) *)
  Definition is_none {A} (o : option A) : bool := match o with None => true | _ => false end.
  (** 296-338.  Not in reset.  Both sides sample tvalid and tready before either writes. *)
  Definition src_edge (spause : bool) (c : chan) : chan :=
    if c_swait c then c
    else if (c_ready c && c_valid c) || negb (c_valid c) then
      match c_drive c, spause with
      | Some b, false => mkChan (c_queue c) (c_src c) (c_pend c) None true (Some b) false (c_ready c) (c_kwait c) (c_sample c) (c_sink c) (c_recv c)
      | d, _ => mkChan (c_queue c) (c_src c) (c_pend c) d false (c_bus c) (is_none d) (c_ready c) (c_kwait c) (c_sample c) (c_sink c) (c_recv c)
      end
    else c.
  (** 444-485; [paused] is [self.full() or pause_sample], [sleep] is [pause_sample == bool(self.pause)].  [v], [b]: tvalid and the bus before the edge *)
  Definition sink_edge (v : bool) (b : option B) (paused sleep : bool) (c : chan) : chan :=
    if c_kwait c then c
    else mkChan (c_queue c) (c_src c) (c_pend c) (c_drive c) (c_valid c) (c_bus c) (c_swait c) (negb paused) ((negb v || paused) && sleep)
           (if c_ready c && v then b else c_sample c) (c_sink c) (c_recv c).
  (** 430-442: the rising edges of tvalid and tready, which come after the writes of the clock edge *)
  Definition monitors (before c : chan) : chan :=
    if (c_valid c && negb (c_valid before)) || (c_ready c && negb (c_ready before)) then
      mkChan (c_queue c) (c_src c) (c_pend c) (c_drive c) (c_valid c) (c_bus c) (c_swait c) (c_ready c) false (c_sample c) (c_sink c) (c_recv c)
    else c.
  (** [None]: not possible now.  The clock does not advance while the sink has a sample to take: [sample_sync.set] (477) wakes [_run] in
      the same time step. *)
  Definition chan_step (c : chan) (o : chan_op) : option (res chan) :=
    match o with
    | OSend f => Some (Ok (mkChan (c_queue c ++ [f]) (c_src c) (c_pend c) (c_drive c) (c_valid c) (c_bus c) (c_swait c) (c_ready c) (c_kwait c) (c_sample c) (c_sink c) (c_recv c)))
    | ORun =>
      match c_pend c with
      | Some _ => None
      | None =>
        match produce (c_src c) (c_queue c) with
        | None => None
        | Some r => Some ('(b, s, q) <- r ;; Ok (mkChan q s (Some b) (c_drive c) (c_valid c) (c_bus c) (c_swait c) (c_ready c) (c_kwait c) (c_sample c) (c_sink c) (c_recv c)))
        end
      end
    | ODrive =>
      match c_pend c, c_drive c with
      | Some b, None => Some (Ok (mkChan (c_queue c) (c_src c) None (Some b) (c_valid c) (c_bus c) false (c_ready c) (c_kwait c) (c_sample c) (c_sink c) (c_recv c)))
      | _, _ => None
      end
    | OEdge spause paused sleep =>
      if is_none (c_sample c) then Some (Ok (monitors c (sink_edge (c_valid c) (c_bus c) paused sleep (src_edge spause c)))) else None
    | OSink =>
      match c_sample c with
      | None => None
      | Some b => Some ('(k, fs) <- consume (c_sink c) b ;; Ok (mkChan (c_queue c) (c_src c) (c_pend c) (c_drive c) (c_valid c) (c_bus c) (c_swait c) (c_ready c) (c_kwait c) None k (c_recv c ++ fs)))
      end
    | OWake => Some (Ok (mkChan (c_queue c) (c_src c) (c_pend c) (c_drive c) (c_valid c) (c_bus c) (c_swait c) (c_ready c) false (c_sample c) (c_sink c) (c_recv c)))
    end.
  Fixpoint chan_run (c : chan) (os : list chan_op) : option (res chan) :=
    match os with
    | [] => Some (Ok c)
    | o :: os => match chan_step c o with Some (Ok c) => chan_run c os | x => x end
    end.
  (** frames handed to [send] *)
  Definition sent_frames (os : list chan_op) : list F := flat_map (fun o => match o with OSend f => [f] | _ => [] end) os.
End Chan.
Arguments chan : clear implicits.
Arguments chan_op : clear implicits.
