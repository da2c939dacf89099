(** How the sources of the streams tell that they are idle. *)
From Verif Require Import Base.

(** xilinx/us/interface.py:225-355 [UsPcieSource], intel/s10/interface.py:301-486 and intel/ptile/interface.py:327-524 [*Source].  Of a frame only its size counts.
    [z_q]: [queue]; [z_r]: what is left of the frames [_run] has taken; [z_d]: what [drive_obj] carries (0: it is [None]); [z_v]: what the bus carries (0: it is not valid);
    [z_asleep]: [_run_source] waits for [bus_active_event]; [z_active]: [active]; [z_idle]: [idle_event].
    A frame has at least one dword.  X values are left out.
    [z_rc], [z_sent], [z_taken], [z_lost] are not in the code: the sink allows a word in this cycle (with a ready latency), what was given to [send], what left the bus, and what a reset took from it or [clear] from the queue. *)
Record src := mkSrc { z_q : list Z; z_r : Z; z_d : Z; z_v : Z; z_asleep : bool; z_active : bool; z_idle : bool; z_rc : bool; z_sent : Z; z_taken : Z; z_lost : Z }.
(** us 138-142, 238; s10 209-213, 314; ptile 227-231, 340 *)
Definition src0 : src := mkSrc [] 0 0 0 false false true false 0 0 0.
Inductive zlabel :=
| ZSend (n : Z)                (** [send], [send_nowait]: us 263-280, s10 353-370, ptile 387-404 *)
| ZRun (k : nat) (b : Z)       (** [_run] takes [k] further frames and gives [b] of what it has to [_drive] (any layout): us 255-261, 343-355 and the [_run] of the streams, s10 346-351, 423-486, ptile 380-385, 457-524 *)
| ZClear                       (** [clear]: us 179-183, s10 268-272, ptile 294-298 *)
| ZEdge (rd pause rst : bool). (** [_run_source] at an edge of the clock, with [ready] as delayed: us 296-338, s10 386-421, ptile 420-455 *)
Definition z_sum (l : list Z) : Z := fold_right Z.add 0 l.
(** [us]: the source of xilinx/us, which sleeps while it has nothing to do; [lat]: [ready_latency] is not 0 (only Intel).  [None]: the label cannot happen. *)
Definition z_act (us lat : bool) (e : zlabel) (s : src) : option src :=
  let made q r d v asleep active idle := mkSrc q r d v asleep active idle (z_rc s) (z_sent s) (z_taken s) (z_lost s) in
  match e with
  | ZSend n => if 1 <=? n then Some (made (z_q s ++ [n]) (z_r s) (z_d s) (z_v s) (z_asleep s) (z_active s) false) else None
  | ZRun k b =>
    let r := z_r s + z_sum (firstn k (z_q s)) in
    if (z_d s =? 0) && (1 <=? b) && (b <=? r) then Some (made (skipn k (z_q s)) (r - b) b (z_v s) false (z_active s) (z_idle s)) else None
  | ZClear => Some (made [] (z_r s) (z_d s) (z_v s) (z_asleep s) (z_active s) true)
  | ZEdge rd pause rst =>
    if z_asleep s then Some s
    else if rst then Some (made (z_q s) (z_r s) (z_d s) 0 false (us && z_active s) (z_idle s))
    else
      let valid := negb (z_v s =? 0) in
      if (rd && valid) || negb valid || lat then
        if negb (z_d s =? 0) && negb pause && (rd || negb lat) then Some (made (z_q s) (z_r s) 0 (z_d s) false true (z_idle s))
        else let none := z_d s =? 0 in Some (made (z_q s) (z_r s) (z_d s) 0 (us && none) (negb none) (z_idle s || none))
      else Some s
  end.
(** What somebody else sees who looks at [send] and at the bus: a word is taken at an edge with [valid] and [ready], or, with a ready latency, with [valid] in a cycle allowed by [ready]
    that many cycles before; and lost in a reset, or in the queue by [clear]. *)
Definition z_count (lat : bool) (e : zlabel) (s s' : src) : src :=
  let '(sent, taken, lost) := match e with ZSend n => (n, 0, 0) | ZRun _ _ => (0, 0, 0) | ZClear => (0, 0, z_sum (z_q s))
    | ZEdge rd _ rst => if rst then (0, 0, z_v s) else if (if lat then z_rc s else rd) then (0, z_v s, 0) else (0, 0, 0) end in
  mkSrc (z_q s') (z_r s') (z_d s') (z_v s') (z_asleep s') (z_active s') (z_idle s') (match e with ZEdge rd _ _ => rd | _ => z_rc s end)
    (z_sent s + sent) (z_taken s + taken) (z_lost s + lost).
Definition z_step (us lat : bool) (e : zlabel) (s : src) : option src := match z_act us lat e s with Some s' => Some (z_count lat e s s') | None => None end.
Fixpoint z_run (us lat : bool) (es : list zlabel) (s : src) : option src :=
  match es with [] => Some s | e :: r => match z_step us lat e s with Some s => z_run us lat r s | None => None end end.
(** us 290-291, s10 380-381, ptile 414-415 [idle] *)
Definition z_is_idle (s : src) : bool := match z_q s with [] => true | _ => false end && negb (z_active s).

(** The flags of the sinks: xilinx/us/interface.py:358-497 and the [_run] of its sinks (604-695 for [RqSink]), intel/s10/interface.py:489-643, intel/ptile/interface.py:527-679.
    [zs_n]: how many frames are in [queue]; [zs_ev]: [active_event]; [zs_active]: [active].  Of a word only counts which of its valid segments end a frame. *)
Record snk := mkSnk { zs_n : Z; zs_ev : bool; zs_active : bool }.
Definition snk0 : snk := mkSnk 0 false false.
Inductive slabel :=
| YBeat (ends : list bool)   (** [_run] gets a word: us 612-614, 691-695, s10 589, 631-635, ptile 627, 667-671; [_sink_frame]: us 490-495, s10 637-642, ptile 673-678 *)
| YRecv                      (** [recv], [recv_nowait]: us 395-409, s10 513-526, ptile 551-564 *)
| YClear.                    (** [clear]: us 179-183, s10 268-272, ptile 294-298 *)
Definition zs_step (e : slabel) (s : snk) : option snk :=
  match e with
  | YBeat ends => Some (fold_left (fun s (eop : bool) => if eop then mkSnk (zs_n s + 1) true false else s) ends (mkSnk (zs_n s) (zs_ev s) true))
  | YRecv => if 0 <? zs_n s then let n := zs_n s - 1 in Some (mkSnk n (if n =? 0 then false else zs_ev s) (zs_active s)) else None
  | YClear => Some (mkSnk 0 false (zs_active s))
  end.
Fixpoint zs_run (es : list slabel) (s : snk) : option snk :=
  match es with [] => Some s | e :: r => match zs_step e s with Some s => zs_run r s | None => None end end.
(** us 419-420, s10 536-537, ptile 574-575 [idle] *)
Definition zs_is_idle (s : snk) : bool := negb (zs_active s).
(** us 422-428, s10 539-545, ptile 577-583 [wait] without a timeout returns now. *)
Definition zs_wait (s : snk) : bool := negb (zs_n s =? 0) || zs_ev s.
