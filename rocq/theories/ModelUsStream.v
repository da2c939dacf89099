(** xilinx/us/interface.py: the AXI stream sources and sinks of the UltraScale interfaces. *)
From Verif Require Import Base ModelUtils ModelFrames ModelChan.

(** The four interfaces: [RqSource]/[RqSink] (498-695), [RcSource]/[RcSink] (698-887), [CqSource]/[CqSink] (890-1079) and
    [CcSource]/[CcSink] (1082-1249).  Their code differs in what is put where, not in the loops. *)
Inductive us_kind := Rq | Rc | Cq | Cc.
(** width of tdata, segments, width of tuser *)
Record us_cfg := mkUsCfg { kd : us_kind; wd : Z; sg : Z; tuw : Z }.
Definition w512 (c : us_cfg) : bool := wd c =? 512.
(** xilinx/us/interface.py:154-169: [byte_lanes] is [len(tkeep)], a lane for each 32 bits *)
Definition lanes (c : us_cfg) : Z := wd c / 32.
Definition seg_lanes (c : us_cfg) : Z := lanes c / sg c.
(** xilinx/us/interface.py:165-166 and the four [_init] (499-511, 699-711, 891-905, 1083-1095) *)
Definition us_init_ok (c : us_cfg) : bool :=
  ((wd c =? 64) || (wd c =? 128) || (wd c =? 256) || w512 c) &&
  match kd c with
  | Rq => if w512 c then (tuw c =? 137) && ((sg c =? 1) || (sg c =? 2)) else ((tuw c =? 60) || (tuw c =? 62)) && (sg c =? 1)
  | Rc => if w512 c then (tuw c =? 161) && ((sg c =? 1) || (sg c =? 2) || (sg c =? 4)) else (tuw c =? 75) && ((sg c =? 1) || (sg c =? 2))
  | Cq => if w512 c then (tuw c =? 183) && ((sg c =? 1) || (sg c =? 2)) else ((tuw c =? 85) || (tuw c =? 88)) && (sg c =? 1)
  | Cc => if w512 c then (tuw c =? 81) && ((sg c =? 1) || (sg c =? 2)) else (tuw c =? 33) && (sg c =? 1)
  end.
Definition disc_off (c : us_cfg) : Z :=
  match kd c with
  | Rq => if w512 c then 36 else 11 | Rc => if w512 c then 96 else 42
  | Cq => if w512 c then 96 else 41 | Cc => if w512 c then 16 else 0
  end.
Definition par_off (c : us_cfg) : Z :=
  match kd c with
  | Rq => if w512 c then 73 else 28 | Rc => if w512 c then 97 else 43
  | Cq => if w512 c then 119 else 53 | Cc => if w512 c then 17 else 1
  end.
(** byte enables: [lane*4] on RC (757), [lane*4+self.byte_en_offset] on CQ (956) *)
Definition be_off (c : us_cfg) : option Z :=
  match kd c with Rc => Some 0 | Cq => Some (if w512 c then 16 else 8) | _ => None end.

(** xilinx/us/interface.py:99-114 [UsPcieTransaction] *)
Record beat := mkBeat { tdata : Z; tkeep : Z; tuser : Z; tlast : Z }.
Definition beat0 : beat := mkBeat 0 0 0 0.
(** [transaction.tuser |= v << o] and the like *)
Definition or_user (v o : Z) (b : beat) : beat := mkBeat (tdata b) (tkeep b) (Z.lor (tuser b) (Z.shiftl v o)) (tlast b).
Definition or_data (v o : Z) (b : beat) : beat := mkBeat (Z.lor (tdata b) (Z.shiftl v o)) (tkeep b) (tuser b) (tlast b).
Definition or_keep (v o : Z) (b : beat) : beat := mkBeat (tdata b) (Z.lor (tkeep b) (Z.shiftl v o)) (tuser b) (tlast b).
Definition or_users (l : list (Z * Z)) (b : beat) : beat := fold_left (fun b '(v, o) => or_user v o b) l b.

(** What a source adds to tuser at the first segment of a frame (534-556, 734-746, 928-946, 1118-1127), values and shifts. *)
Definition sop_user (c : us_cfg) (sop seg : Z) (f : us_frame) : list (Z * Z) :=
  let ptr := seg * seg_lanes c / 4 in
  match kd c with
  | Rq =>
    if w512 c then
      [(Z.land (us_first_be f) 0xf, sop * 4); (Z.land (us_last_be f) 0xf, sop * 4 + 8); (Z.land (us_seq f) 0x3f, sop * 6 + 61);
       (1, 20 + sop); (ptr, 22 + sop * 2)]
    else
      [(Z.land (us_first_be f) 0xf, 0); (Z.land (us_last_be f) 0xf, 4); (Z.land (us_seq f) 0xf, 24)] ++
      (if tuw c =? 62 then [(Z.land (Z.shiftr (us_seq f) 4) 3, 60)] else [])
  | Rc => if w512 c then [(1, 64 + sop); (ptr, 68 + sop * 2)] else [(1, 32 + sop)]
  | Cq =>
    if w512 c then
      [(Z.land (us_first_be f) 0xf, seg * 4); (Z.land (us_last_be f) 0xf, seg * 4 + 8); (1, 80 + sop); (ptr, 82 + sop * 2)]
    else [(Z.land (us_first_be f) 0xf, 0); (Z.land (us_last_be f) 0xf, 4); (1, 40)]
  | Cc => if w512 c then [(1, 0 + sop); (ptr, 2 + sop * 2)] else []
  end.
(** ... and at the last one (573-581, 764-775, 964-972, 1144-1152) *)
Definition eop_user (c : us_cfg) (eop last : Z) : list (Z * Z) :=
  match kd c with
  | Rq => if w512 c then [(1, 26 + eop); (last, 28 + eop * 4)] else []
  | Rc => if w512 c then [(1, 76 + eop); (last, 80 + eop * 4)] else [(1, 34 + eop * 4); (last, 35 + eop * 4)]
  | Cq => if w512 c then [(1, 86 + eop); (last, 88 + eop * 4)] else []
  | Cc => if w512 c then [(1, 6 + eop); (last, 8 + eop * 4)] else []
  end.

(** The loop over the lanes of a segment (561-571, 751-762, 951-962, 1132-1142); the state is the transaction, [frame_offset] and
    [last_lane]. *)
Fixpoint src_lanes (c : us_cfg) (f : us_frame) (seg : Z) (ks : list Z) (b : beat) (off last : Z) : res (beat * Z * Z) :=
  match ks with
  | [] => Ok (b, off, last)
  | k :: ks =>
    let lane := k + seg * seg_lanes c in
    if off <? zlen (us_data f) then
      d <- zidx (us_data f) off ;;
      let b := or_keep 1 lane (or_data d (lane * 32) b) in
      b <- match be_off c with
           | Some o => e <- zidx (us_byte_en f) off ;; Ok (or_user e (lane * 4 + o) b)
           | None => Ok b
           end ;;
      p <- zidx (us_parity f) off ;;
      src_lanes c f seg ks (or_user p (lane * 4 + par_off c) b) (off + 1) lane
    else src_lanes c f seg ks (or_user 0xf (lane * 4 + par_off c) b) off last
  end.
(** The variables [frame], [frame_offset] and [first] of [_run] *)
Definition src_state := option (us_frame * Z * bool).
(** [_get_frame] or [_get_frame_nowait], when a frame is needed *)
Definition src_next (cur : src_state) (q : list us_frame) : option (us_frame * Z * bool * list us_frame) :=
  match cur with
  | Some x => Some (x, q)
  | None => match q with f :: q => Some (f, 0, true, q) | [] => None end
  end.
(** The loop over the segments of a transaction (524-586, 724-780, 918-977, 1108-1157).  [q] is the queue. *)
Fixpoint src_segs (c : us_cfg) (segs : list Z) (cur : src_state) (q : list us_frame) (b : beat) (sop eop : Z) : res (beat * src_state * list us_frame) :=
  match segs with
  | [] => Ok (b, cur, q)
  | seg :: segs =>
    match src_next cur q with
    | None => Ok (b, None, q)
    | Some (f, off, first, q) =>
      let b := if first then or_users (sop_user c sop seg f) b else b in
      let sop := if first then sop + 1 else sop in
      let b := if us_disc f then or_user 1 (disc_off c) b else b in
      '(b, off, last) <- src_lanes c f seg (zrange (seg_lanes c)) b off 0 ;;
      if off >=? zlen (us_data f) then
        let b := or_users (eop_user c eop last) b in
        let b := if sg c =? 1 then mkBeat (tdata b) (tkeep b) (tuser b) 1 else b in
        src_segs c segs None q b sop (eop + 1)
      else src_segs c segs (Some (f, off, false)) q b sop eop
    end
  end.
(** One transaction of [_run]; the source waits when it has no frame and the queue is empty. *)
Definition src_beat (c : us_cfg) (cur : src_state) (q : list us_frame) : option (res (beat * src_state * list us_frame)) :=
  match src_next cur q with
  | None => None
  | Some (f, off, first, q) => Some (src_segs c (zrange (sg c)) (Some (f, off, first)) q beat0 0 0)
  end.

(** ** Sinks *)
Definition ubit (b : beat) (n : Z) : bool := zbool (Z.land (tuser b) (Z.shiftl 1 n)).
Definition ufield (b : beat) (o m : Z) : Z := Z.land (Z.shiftr (tuser b) o) m.
(** Where a sink of a 512 bit interface finds is_sop, is_sop_ptr, is_eop, is_eop_ptr (636-642, 842-849, 1028-1034, 1206-1212) *)
Definition sop_at (c : us_cfg) : Z * Z * Z * Z :=
  match kd c with
  | Rq => (20, 22, 26, 28) | Rc => (64, 68, 76, 80) | Cq => (80, 82, 86, 88) | Cc => (0, 2, 6, 8)
  end.
(** [sop_byte_lane] and [eop_byte_lane] (634-642, 827-849, 1026-1034, 1204-1212); [fr]: whether [frame is not None] *)
Definition sop_lanes (c : us_cfg) (fr : bool) (b : beat) : Z :=
  if w512 c then
    let '(s, p, _, _) := sop_at c in
    fold_left (fun m k => if ubit b (s + k) then Z.lor m (Z.shiftl 1 (ufield b (p + k * 2) 3 * 4)) else m) (zrange (sg c)) 0
  else
    let m := if ubit b 32 then Z.shiftl 1 (if fr then 4 else 0) else 0 in
    if zbool (Z.land (tuser b) (Z.shiftl 2 32)) then Z.lor m (Z.shiftl 1 4) else m.
Definition eop_lanes (c : us_cfg) (b : beat) : Z :=
  if w512 c then
    let '(_, _, e, q) := sop_at c in
    fold_left (fun m k => if ubit b (e + k) then Z.lor m (Z.shiftl 1 (ufield b (q + k * 4) 0xf)) else m) (zrange (sg c)) 0
  else fold_left (fun m k => if ubit b (34 + k * 4) then Z.lor m (Z.shiftl 1 (ufield b (35 + k * 4) 7)) else m) (zrange (sg c)) 0.
(** The state of the loop over the lanes (643-657, 850-864, 1035-1049, 1213-1227) *)
Record scan := mkScan { sc_state : bool; lane_valid : Z; seg_valid : Z; seg_sop : Z; seg_eop : Z }.
Definition bit_of (m k : Z) : bool := zbool (Z.land m (Z.shiftl 1 k)).
Definition scan_lane (c : us_cfg) (sop eop : Z) (s : scan) (k : Z) : scan :=
  let mask := Z.shiftl 1 k in
  let seg_mask := Z.shiftl 1 (k / seg_lanes c) in
  let s := if zbool (Z.land sop mask) then mkScan true (lane_valid s) (seg_valid s) (Z.lor (seg_sop s) seg_mask) (seg_eop s) else s in
  let s := if sc_state s then mkScan true (Z.lor (lane_valid s) mask) (Z.lor (seg_valid s) seg_mask) (seg_sop s) (seg_eop s) else s in
  if zbool (Z.land eop mask) then mkScan false (lane_valid s) (seg_valid s) (seg_sop s) (Z.lor (seg_eop s) seg_mask) else s.
Definition scan_lanes (c : us_cfg) (sop eop : Z) : scan := fold_left (scan_lane c sop eop) (zrange (lanes c)) (mkScan true 0 0 0 0).
(** [lane_valid], [seg_valid], [seg_sop] and [seg_eop] (618-657, 812-864, 1011-1049, 1189-1227); [not frame] holds for [None] and for
    a frame without data.  [straddle]: 512 bits, or on RC at least 256 (826) *)
Definition straddle (c : us_cfg) : bool := match kd c with Rc => wd c >=? 256 | _ => w512 c end.
Definition masks (c : us_cfg) (fr : option us_frame) (b : beat) : scan :=
  if sg c =? 1 then
    mkScan true (tkeep b) 1 (match fr with None => 1 | Some f => if zlen (us_data f) =? 0 then 1 else 0 end) (if zbool (tlast b) then 1 else 0)
  else if straddle c then scan_lanes c (sop_lanes c (match fr with None => false | _ => true end) b) (eop_lanes c b)
  else mkScan true (Z.shiftl 1 (lanes c) - 1) (Z.shiftl 1 (sg c) - 1) 0 0.
(** The new frame at a start (663-680; 870-871; 1055-1064; 1233-1234) *)
Definition sink_new (c : us_cfg) (b : beat) (sop seg : Z) : us_frame :=
  match kd c with
  | Rq =>
    if w512 c then mkUs [] [] [] (ufield b (sop * 4) 0xf) (ufield b (sop * 4 + 8) 0xf) false (ufield b (sop * 6 + 61) 0x3f)
    else mkUs [] [] [] (ufield b 0 0xf) (ufield b 4 0xf) false
           (let s := ufield b 24 0xf in if tuw c =? 62 then Z.lor s (Z.shiftl (ufield b 60 3) 4) else s)
  | Cq =>
    if w512 c then mkUs [] [] [] (ufield b (seg * 4) 0xf) (ufield b (seg * 4 + 8) 0xf) false 0
    else mkUs [] [] [] (ufield b 0 0xf) (ufield b 4 0xf) false 0
  | _ => us_frame0
  end.
(** [frame.discontinue = True] and the appends; attributes of [None] raise *)
Definition sink_disc (fr : option us_frame) : res (option us_frame) :=
  match fr with
  | None => Err AttributeError
  | Some f => Ok (Some (mkUs (us_data f) (us_byte_en f) (us_parity f) (us_first_be f) (us_last_be f) true (us_seq f)))
  end.
Definition sink_lane (c : us_cfg) (b : beat) (lane : Z) (fr : option us_frame) : res (option us_frame) :=
  match fr with
  | None => Err AttributeError
  | Some f =>
    Ok (Some (mkUs (us_data f ++ [Z.land (Z.shiftr (tdata b) (lane * 32)) 0xffffffff])
                (us_byte_en f ++ match be_off c with Some o => [ufield b (lane * 4 + o) 0xf] | None => [] end)
                (us_parity f ++ [ufield b (lane * 4 + par_off c) 0xf]) (us_first_be f) (us_last_be f) (us_disc f) (us_seq f)))
  end.
Fixpoint sink_lanes (c : us_cfg) (b : beat) (valid seg : Z) (ks : list Z) (fr : option us_frame) : res (option us_frame) :=
  match ks with
  | [] => Ok fr
  | k :: ks =>
    let lane := k + seg * seg_lanes c in
    fr <- (if bit_of valid lane then sink_lane c b lane fr else Ok fr) ;;
    sink_lanes c b valid seg ks fr
  end.
(** The loop over the segments (659-695, 866-887, 1051-1079, 1229-1249); [sunk] are the frames put into the queue.
    [_sink_frame(None)] raises *)
Fixpoint sink_segs (c : us_cfg) (b : beat) (m : scan) (segs : list Z) (sop : Z) (fr : option us_frame) : res (option us_frame * list us_frame) :=
  match segs with
  | [] => Ok (fr, [])
  | seg :: segs =>
    if bit_of (seg_valid m) seg then
      let start := bit_of (seg_sop m) seg in
      let fr := if start then Some (sink_new c b sop seg) else fr in
      let sop := if start then sop + 1 else sop in
      fr <- (if ubit b (disc_off c) then sink_disc fr else Ok fr) ;;
      fr <- sink_lanes c b (lane_valid m) seg (zrange (seg_lanes c)) fr ;;
      if bit_of (seg_eop m) seg then
        match fr with
        | None => Err TypeError
        | Some f => '(fr, sunk) <- sink_segs c b m segs sop None ;; Ok (fr, f :: sunk)
        end
      else sink_segs c b m segs sop fr
    else sink_segs c b m segs sop fr
  end.
Definition sink_beat (c : us_cfg) (fr : option us_frame) (b : beat) : res (option us_frame * list us_frame) :=
  sink_segs c b (masks c fr b) (zrange (sg c)) 0 fr.
(** The initial value of [frame] (607, 801, 1000, 1178) *)
Definition sink0 (c : us_cfg) : option us_frame := match kd c with Rc => None | _ => Some us_frame0 end.

(** ** On the bus: a signal takes only values that fit ([bus.drive], 322), cocotb raises otherwise *)
Definition beat_fits (c : us_cfg) (b : beat) : bool :=
  (0 <=? tdata b) && (tdata b <? 2 ^ wd c) && (0 <=? tkeep b) && (tkeep b <? 2 ^ lanes c) && (0 <=? tuser b) && (tuser b <? 2 ^ tuw c) && (0 <=? tlast b) && (tlast b <? 2).
Definition us_produce (c : us_cfg) (cur : src_state) (q : list us_frame) : option (res (beat * src_state * list us_frame)) :=
  match src_beat c cur q with
  | Some (Ok (b, cur, q)) => Some (if beat_fits c b then Ok (b, cur, q) else Err OverflowError)
  | x => x
  end.
(** Source and sink on one stream (constructors 225-252, 358-387) *)
Definition us_chan_run (c : us_cfg) := chan_run (us_produce c) (sink_beat c).
Definition us_chan0 (c : us_cfg) : chan us_frame beat src_state (option us_frame) := chan0 None (sink0 c).
