(** intel/s10/interface.py and intel/ptile/interface.py: frames from TLPs and back, and the segmented streams. *)
From Verif Require Import Base ModelUtils ModelTlp ModelFrames ModelFunction ModelChan ModelAvst.

(** H-tile (s10) or P-tile (ptile).  The two files differ in the fields named below, not in the loops, so one model covers both.  An H-tile
    frame has no [tlp_prfx], [hdr], [tlp_prfx_par], [hdr_par] and [tlp_abort]; in the model they are 0 and not looked at. *)
Inductive dev := HTile | PTile.

(** ** Frames *)
Fixpoint collect {A} (l : list (res A)) : res (list A) :=
  match l with [] => Ok [] | r :: l => x <- r ;; xs <- collect l ;; Ok (x :: xs) end.
(** [for k in range(0, len(p), 4): data.extend(struct.unpack_from(.., p, k))] *)
Definition get_words (unp : nat -> list Z -> nat -> res Z) (p : list Z) : res (list Z) :=
  collect (map (fun k => unp 4%nat p (4 * k)%nat) (List.seq 0 ((length p + 3) / 4))).
(** [for dw in l: extend(struct.pack(.., dw))] *)
Definition put_words (pck : nat -> Z -> res (list Z)) (l : list Z) : res (list Z) :=
  ps <- collect (map (pck 4%nat) l) ;; Ok (concat ps).
(** [p.ljust(16, b'\x00')] *)
Definition ljust16 (p : list Z) : list Z := p ++ repeat 0 (16 - length p).
(** intel/s10/interface.py:100-109 (with 119-121), intel/ptile/interface.py:105-113 (with 128-130): the constructor given a [Tlp];
    [frame.get_data()] is [frame.data] (core/tlp.py:381-382) *)
Definition frame_of_tlp (v : dev) (t : tlp) : res pt_frame :=
  hdr <- pack_header t ;;
  match v with
  | HTile =>
    h <- get_words struct_unpack_be hdr ;;
    d <- get_words struct_unpack_le (data t) ;;
    Ok (mkPt 0 0 (h ++ d) 0 0 (data_parity (h ++ d)) 0 None 0 0 0)
  | PTile =>
    d <- get_words struct_unpack_le (data t) ;;
    pt_update_parity (mkPt 0 (from_be (ljust16 hdr)) d 0 0 [] 0 None 0 0 0)
  end.
(** [hdr.to_bytes(16, 'big')] *)
Definition to_bytes16 (v : Z) : res (list Z) := if (0 <=? v) && (v <? 2 ^ 128) then Ok (be_bytes 16 v) else Err OverflowError.
(** intel/s10/interface.py:123-132, intel/ptile/interface.py:132-138 [to_tlp] *)
Definition tlp_of_frame (v : dev) (f : pt_frame) : res tlp :=
  match v with
  | HTile =>
    hdr <- put_words struct_pack_be (firstn 5 (t_data f)) ;;
    t <- unpack_header hdr ;;
    d <- put_words struct_pack_le (skipn (Z.to_nat (get_header_size_dw t)) (t_data f)) ;;
    Ok (set_data (data t ++ d) t)
  | PTile =>
    hdr <- to_bytes16 (t_hdr f) ;;
    t <- unpack_header hdr ;;
    d <- put_words struct_pack_le (t_data f) ;;
    Ok (set_data (data t ++ d) t)
  end.

(** ** The bus *)
(** Signals written by a source and sampled by a sink ([tlp_abort] of the P-tile is neither).  [SHdr], [SPrfx], [SHdrPar] and [SPrfxPar] exist
    on the P-tile only; [SPar] is [parity] or [data_par]. *)
Inductive sig := SData | SPar | SSop | SEop | SValid | SEmpty | SErr | SBar | SFunc | SVfa | SVfn | SHdr | SPrfx | SHdrPar | SPrfxPar.
Definition all_sigs : list sig := [SData; SPar; SSop; SEop; SValid; SEmpty; SErr; SBar; SFunc; SVfa; SVfn; SHdr; SPrfx; SHdrPar; SPrfxPar].
Definition sig_eq_dec (a b : sig) : {a = b} + {a <> b}. Proof. decide equality. Defined.
(** device, [len(bus.data)], [len(bus.valid)] and which signals the bus has *)
Record in_cfg := mkIn { dv : dev; iw : Z; ig : Z; has : sig -> bool }.
(** s10 223-235, ptile 241-253 *)
Definition seg_width (c : in_cfg) : Z := iw c / ig c.
Definition seg_par_width (c : in_cfg) : Z := seg_width c / 8.
Definition seg_lns (c : in_cfg) : Z := iw c / 32 / ig c.
Definition empty_width (c : in_cfg) : Z := bit_length (seg_lns c - 1).
(** s10 237-260, ptile 255-286: the lengths asserted for the signals, and the other assertions *)
Definition bus_width (c : in_cfg) (s : sig) : Z :=
  match s with
  | SData => ig c * seg_width c
  | SPar => ig c * seg_width c / 8
  | SSop | SEop | SValid | SErr | SVfa => ig c
  | SEmpty => ig c * empty_width c
  | SBar => ig c * 3
  | SFunc => match dv c with HTile => ig c * 2 | PTile => ig c * 3 end
  | SVfn => ig c * 11
  | SHdr => ig c * 128
  | SPrfx => ig c * 32
  | SHdrPar => ig c * 128 / 8
  | SPrfxPar => ig c * 32 / 8
  end.
Definition in_init_ok (c : in_cfg) : bool :=
  (match dv c with HTile => false | PTile => iw c =? 128 end || (iw c =? 256) || (iw c =? 512)) && (iw c =? ig c * seg_width c).
(** s10 168-182, ptile 186-200: a transaction; all 0 at first *)
Definition ibeat := sig -> Z.
Definition ibeat0 : ibeat := fun _ => 0.
(** [transaction.s |= v << o] *)
Definition or_sig (s : sig) (v o : Z) (b : ibeat) : ibeat := fun s' => if sig_eq_dec s s' then Z.lor (b s') (Z.shiftl v o) else b s'.

(** ** Source *)
(** s10 460-464, ptile 498-502: [for k in range(n)], from [k] on; the state is the transaction, [frame_offset] and [empty] *)
Fixpoint isrc_lanes (c : in_cfg) (f : pt_frame) (seg : Z) (n : nat) (k : Z) (b : ibeat) (off empty : Z) : res (ibeat * Z * Z) :=
  match n with
  | O => Ok (b, off, empty)
  | S n =>
    d <- zidx (t_data f) off ;;
    p <- zidx (t_parity f) off ;;
    isrc_lanes c f seg n (k + 1) (or_sig SPar p (4 * (k + seg * seg_lns c)) (or_sig SData d (32 * (k + seg * seg_lns c)) b)) (off + 1) (seg_lns c - 1 - k)
  end.
(** s10 443-447, ptile 477-485 *)
Definition isrc_first (c : in_cfg) (f : pt_frame) (seg : Z) (b : ibeat) : ibeat :=
  let b := or_sig SSop 1 seg (or_sig SValid 1 seg b) in
  match dv c with
  | HTile => b
  | PTile => or_sig SPrfxPar (t_prfx_par f) (seg * 4) (or_sig SHdrPar (t_hdr_par f) (seg * 16)
               (or_sig SPrfx (t_prfx f) (seg * 32) (or_sig SHdr (t_hdr f) (seg * 128) b)))
  end.
(** s10 449-454, ptile 487-492 *)
Definition isrc_meta (f : pt_frame) (seg : Z) (b : ibeat) : ibeat :=
  let b := or_sig SFunc (t_func f) (seg * 3) (or_sig SBar (t_bar f) (seg * 3) b) in
  let b := match t_vf f with Some v => or_sig SVfn v (seg * 11) (or_sig SVfa 1 seg b) | None => b end in
  or_sig SErr (t_err f) seg b.
(** The variables [frame], [frame_offset] and [first] of [_run] *)
Definition isrc_state := option (pt_frame * Z * bool).
Definition isrc_next (cur : isrc_state) (q : list pt_frame) : option (pt_frame * Z * bool * list pt_frame) :=
  match cur with
  | Some x => Some (x, q)
  | None => match q with f :: q => Some (f, 0, true, q) | [] => None end
  end.
(** The loop over the segments (s10 433-470, ptile 467-508).  [q] is the queue. *)
Fixpoint isrc_segs (c : in_cfg) (segs : list Z) (cur : isrc_state) (q : list pt_frame) (b : ibeat) : res (ibeat * isrc_state * list pt_frame) :=
  match segs with
  | [] => Ok (b, cur, q)
  | seg :: segs =>
    match isrc_next cur q with
    | None => Ok (b, None, q)
    | Some (f, off, first, q) =>
      let b := if first then isrc_first c f seg b else b in
      let b := isrc_meta f seg b in
      let len := zlen (t_data f) in
      '(b, off, empty) <- (if len =? 0 then Ok (b, off, 0)
        else isrc_lanes c f seg (Z.to_nat (Z.min (seg_lns c) (len - off))) 0 (or_sig SValid 1 seg b) off 0) ;;
      if off >=? len then isrc_segs c segs None q (or_sig SEmpty empty (seg * empty_width c) (or_sig SEop 1 seg b))
      else isrc_segs c segs (Some (f, off, false)) q b
    end
  end.
(** [bus.drive] writes the signals the bus has; cocotb raises when a value does not fit.  A signal the bus does not have stays 0 in the
    sample of the sink. *)
Definition ibeat_fits (c : in_cfg) (b : ibeat) : bool := forallb (fun s => negb (has c s) || ((0 <=? b s) && (b s <? 2 ^ bus_width c s))) all_sigs.
Definition on_bus (c : in_cfg) (b : ibeat) : ibeat := fun s => if has c s then b s else 0.
(** One transaction of [_run] (s10 423-472, ptile 457-510), as it appears on the bus. *)
Definition isrc_beat (c : in_cfg) (cur : isrc_state) (q : list pt_frame) : option (res (ibeat * isrc_state * list pt_frame)) :=
  match isrc_next cur q with
  | None => None
  | Some (f, off, first, q) =>
    Some ('(b, cur, q) <- isrc_segs c (zrange (ig c)) (Some (f, off, first)) q ibeat0 ;;
          if ibeat_fits c b then Ok (on_bus c b, cur, q) else Err OverflowError)
  end.
Definition ibeat_valid (b : ibeat) : bool := zbool (b SValid).

(** ** Sink *)
Definition ibit (b : ibeat) (s : sig) (n : Z) : bool := zbool (Z.land (b s) (Z.shiftl 1 n)).
Definition ifield (b : ibeat) (s : sig) (o m : Z) : Z := Z.land (Z.shiftr (b s) o) m.
(** The variables [frame] and [dword_count] *)
Definition isink_state := (option pt_frame * Z)%type.
Definition isink0 : isink_state := (None, 0).
(** s10 601-612, ptile 641-648: the DWORDs to come *)
Definition isink_count (c : in_cfg) (b : ibeat) (seg : Z) : Z :=
  match dv c with
  | HTile =>
    let hdr := ifield b SData (seg * seg_width c) (2 ^ seg_width c - 1) in
    let fmt := Z.land (Z.shiftr hdr 29) 7 in
    let n := if zbool (Z.land fmt 1) then 4 else 3 in
    if zbool (Z.land fmt 2) then n + (let m := Z.land hdr 0x3ff in if m =? 0 then 1024 else m) else n
  | PTile =>
    let hdr := ifield b SHdr (seg * 128) (2 ^ 128 - 1) in
    if zbool (Z.land hdr (Z.shiftl 1 126)) then let m := Z.land (Z.shiftr hdr 96) 0x3ff in if m =? 0 then 1024 else m else 0
  end.
(** s10 599, 614-618, ptile 637-642, 650-654: the new frame *)
Definition isink_new (c : in_cfg) (b : ibeat) (seg : Z) : pt_frame :=
  let vf := if ibit b SVfa seg then Some (ifield b SVfn (seg * 11) 0x7ff) else None in
  let bar := ifield b SBar (seg * 3) 7 in
  let fn := ifield b SFunc (seg * 3) 7 in
  let err := ifield b SErr seg 1 in
  match dv c with
  | HTile => mkPt 0 0 [] 0 0 [] fn vf bar 0 err
  | PTile =>
    mkPt (ifield b SPrfx (seg * 32) 0xffffffff) (ifield b SHdr (seg * 128) (2 ^ 128 - 1)) []
      (ifield b SPrfxPar (seg * 4) 0xf) (ifield b SHdrPar (seg * 16) 0xffff) [] fn vf bar 0 err
  end.
Definition more (f : pt_frame) (d p : list Z) : pt_frame :=
  mkPt (t_prfx f) (t_hdr f) (t_data f ++ d) (t_prfx_par f) (t_hdr_par f) (t_parity f ++ p) (t_func f) (t_vf f) (t_bar f) (t_abort f) (t_err f).
(** s10 622-628, ptile 658-664 *)
Definition isink_data (c : in_cfg) (b : ibeat) (seg : Z) (f : pt_frame) (count : Z) : pt_frame * Z :=
  if count >? 0 then
    let d := ifield b SData (seg * seg_width c) (2 ^ seg_width c - 1) in
    let p := ifield b SPar (seg * seg_par_width c) (2 ^ seg_par_width c - 1) in
    let ks := zrange (Z.min (seg_lns c) count) in
    (more f (map (fun k => Z.land (Z.shiftr d (32 * k)) 0xffffffff) ks) (map (fun k => Z.land (Z.shiftr p (4 * k)) 0xf) ks), count - zlen ks)
  else (f, count).
(** The loop over the segments (s10 593-635, ptile 631-671); the frames put into the queue are returned *)
Fixpoint isink_segs (c : in_cfg) (b : ibeat) (segs : list Z) (k : isink_state) : res (isink_state * list pt_frame) :=
  match segs with
  | [] => Ok (k, [])
  | seg :: segs =>
    if ibit b SValid seg then
      '(fr, count) <- (if ibit b SSop seg then
                         _ <- py_assert (is_none (fst k)) ;; Ok (Some (isink_new c b seg), isink_count c b seg)
                       else Ok k) ;;
      match fr with
      | None => Err AssertError
      | Some f =>
        let '(f, count) := isink_data c b seg f count in
        if ibit b SEop seg then
          _ <- py_assert (count =? 0) ;;
          '(k, fs) <- isink_segs c b segs (None, count) ;; Ok (k, f :: fs)
        else isink_segs c b segs (Some f, count)
      end
    else isink_segs c b segs k
  end.
Definition isink_beat (c : in_cfg) (k : isink_state) (b : ibeat) : res (isink_state * list pt_frame) := isink_segs c b (zrange (ig c)) k.

(** Source and sink on one stream, with [ready_latency] *)
Definition in_run (c : in_cfg) (lat : nat) := avst_run lat ibeat_valid (isrc_beat c) (isink_beat c).
Definition in_chan0 : avst pt_frame ibeat isrc_state isink_state := avst0 None isink0.
