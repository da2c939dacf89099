(** Where the UltraScale interfaces carry what: the tables of PG156 (64 to 256 bits) and PG213 (all widths). *)
From Verif Require Import Base ModelUtils ModelFrames ModelUsStream SpecUsStream.

(** Fields of tuser; [Sop k], [SopPtr k], [FirstBe k], [LastBe k] and [Seq k] belong to the [k]-th packet that starts in the beat,
    [Eop k] and [EopPtr k] to the [k]-th one that ends in it; [ByteEn l] and [Parity l] belong to DWORD lane [l]. *)
Inductive slot := FirstBe (k : Z) | LastBe (k : Z) | Seq (k : Z) | SeqHi | Sop (k : Z) | SopPtr (k : Z) | Eop (k : Z) | EopPtr (k : Z) | Disc | ByteEn (l : Z) | Parity (l : Z).
(** Lowest bit and width, with 512 bits. *)
Definition wide_slot (i : us_kind) (s : slot) : option (Z * Z) :=
  match i, s with
  | Rq, FirstBe k => Some (4 * k, 4) | Rq, LastBe k => Some (8 + 4 * k, 4) | Rq, Sop k => Some (20 + k, 1) | Rq, SopPtr k => Some (22 + 2 * k, 2)
  | Rq, Eop k => Some (26 + k, 1) | Rq, EopPtr k => Some (28 + 4 * k, 4) | Rq, Disc => Some (36, 1) | Rq, Seq k => Some (61 + 6 * k, 6) | Rq, Parity l => Some (73 + 4 * l, 4)
  | Rc, ByteEn l => Some (4 * l, 4) | Rc, Sop k => Some (64 + k, 1) | Rc, SopPtr k => Some (68 + 2 * k, 2) | Rc, Eop k => Some (76 + k, 1) | Rc, EopPtr k => Some (80 + 4 * k, 4)
  | Rc, Disc => Some (96, 1) | Rc, Parity l => Some (97 + 4 * l, 4)
  | Cq, FirstBe k => Some (4 * k, 4) | Cq, LastBe k => Some (8 + 4 * k, 4) | Cq, ByteEn l => Some (16 + 4 * l, 4) | Cq, Sop k => Some (80 + k, 1) | Cq, SopPtr k => Some (82 + 2 * k, 2)
  | Cq, Eop k => Some (86 + k, 1) | Cq, EopPtr k => Some (88 + 4 * k, 4) | Cq, Disc => Some (96, 1) | Cq, Parity l => Some (119 + 4 * l, 4)
  | Cc, Sop k => Some (k, 1) | Cc, SopPtr k => Some (2 + 2 * k, 2) | Cc, Eop k => Some (6 + k, 1) | Cc, EopPtr k => Some (8 + 4 * k, 4) | Cc, Disc => Some (16, 1)
  | Cc, Parity l => Some (17 + 4 * l, 4)
  | _, _ => None
  end.
(** With 64, 128 or 256 bits; the sequence number has its upper bits at the end of a 62 bit tuser.  One packet per beat, except on RC. *)
Definition narrow_slot (i : us_kind) (s : slot) : option (Z * Z) :=
  match i, s with
  | Rq, FirstBe k => Some (0, 4) | Rq, LastBe k => Some (4, 4) | Rq, Disc => Some (11, 1) | Rq, Seq k => Some (24, 4) | Rq, Parity l => Some (28 + 4 * l, 4) | Rq, SeqHi => Some (60, 2)
  | Rc, ByteEn l => Some (4 * l, 4) | Rc, Sop k => Some (32 + k, 1) | Rc, Eop k => Some (34 + 4 * k, 1) | Rc, EopPtr k => Some (35 + 4 * k, 3) | Rc, Disc => Some (42, 1)
  | Rc, Parity l => Some (43 + 4 * l, 4)
  | Cq, FirstBe k => Some (0, 4) | Cq, LastBe k => Some (4, 4) | Cq, ByteEn l => Some (8 + 4 * l, 4) | Cq, Sop k => Some (40, 1) | Cq, Disc => Some (41, 1) | Cq, Parity l => Some (53 + 4 * l, 4)
  | Cc, Disc => Some (0, 1) | Cc, Parity l => Some (1 + 4 * l, 4)
  | _, _ => None
  end.
Definition slot_at (c : us_cfg) (s : slot) : option (Z * Z) := if wd c =? 512 then wide_slot (kd c) s else narrow_slot (kd c) s.
(** [b] carries [v] in field [s], where the interface has that field. *)
Definition carries (c : us_cfg) (b : beat) (s : slot) (v : Z) : Prop :=
  match slot_at c s with Some (o, w) => (tuser b / 2 ^ o) mod 2 ^ w = v mod 2 ^ w | None => True end.

(** A beat has a piece of a packet in each of its segments, as long as there are packets: [p_cnt] DWORDs from [p_off] on. *)
Record piece := mkPiece { p_f : us_frame; p_off : Z; p_cnt : Z }.
Definition starts (p : piece) : bool := p_off p =? 0.
Definition ends (p : piece) : bool := p_off p + p_cnt p =? zlen (us_data (p_f p)).
(** The pieces of a beat of [n] segments of [len] DWORDs, and what is left: the packet under way with the DWORDs sent, the packets waiting. *)
Fixpoint pieces (len : Z) (n : nat) (cur : option (us_frame * Z)) (q : list us_frame) : list piece * option (us_frame * Z) * list us_frame :=
  match n with
  | O => ([], cur, q)
  | S n =>
    match (match cur, q with Some (f, o), _ => Some (f, o, q) | None, f :: q => Some (f, 0, q) | None, [] => None end) with
    | None => ([], None, [])
    | Some (f, o, q) =>
      let k := Z.min len (zlen (us_data f) - o) in
      let '(l, cur, q) := pieces len n (if o + k =? zlen (us_data f) then None else Some (f, o + k)) q in
      (mkPiece f o k :: l, cur, q)
    end
  end.
(** The variables of a source that has sent [o] DWORDs of a packet. *)
Definition state_of (cur : option (us_frame * Z)) : src_state := match cur with None => None | Some (f, o) => Some (f, o, o =? 0) end.
Definition under_way (c : us_cfg) (cur : option (us_frame * Z)) : Prop := match cur with None => True | Some (f, o) => good_frame c f /\ 0 <= o < zlen (us_data f) end.
Definition count (f : piece -> bool) (l : list piece) : Z := zlen (filter f l).
Definition byte_enables (c : us_cfg) : bool := match kd c with Rc | Cq => true | _ => false end.
(** What a beat with the pieces [l] has to show. *)
Definition laid_out (c : us_cfg) (l : list piece) (b : beat) : Prop :=
  (forall l1 p l2, l = l1 ++ p :: l2 ->
    let lane := zlen l1 * seg_lanes c in
    (** the DWORDs with parity and byte enables *)
    (forall k, 0 <= k < p_cnt p ->
      (tdata b / 2 ^ (32 * (lane + k))) mod 2 ^ 32 = nth (Z.to_nat (p_off p + k)) (us_data (p_f p)) 0 /\ Z.testbit (tkeep b) (lane + k) = true /\
      carries c b (Parity (lane + k)) (nth (Z.to_nat (p_off p + k)) (us_parity (p_f p)) 0) /\
      carries c b (ByteEn (lane + k)) (nth (Z.to_nat (p_off p + k)) (us_byte_en (p_f p)) 0)) /\
    (forall k, p_cnt p <= k < seg_lanes c -> Z.testbit (tkeep b) (lane + k) = false) /\
    (** start and end *)
    (starts p = true -> let k := count starts l1 in
      carries c b (Sop k) 1 /\ carries c b (SopPtr k) (lane / 4) /\ carries c b (Seq k) (us_seq (p_f p)) /\ (tuw c = 62 -> carries c b SeqHi (us_seq (p_f p) / 16)) /\
      (kd c = Rq \/ sg c = 1 \/ count starts l1 = zlen l1 -> carries c b (FirstBe k) (us_first_be (p_f p)) /\ carries c b (LastBe k) (us_last_be (p_f p)))) /\
    (ends p = true -> let k := count ends l1 in carries c b (Eop k) 1 /\ carries c b (EopPtr k) (lane + p_cnt p - 1))) /\
  (forall k, count starts l <= k < sg c -> carries c b (Sop k) 0) /\ (forall k, count ends l <= k < sg c -> carries c b (Eop k) 0) /\
  carries c b Disc (Z.b2z (existsb (fun p => us_disc (p_f p)) l)) /\
  tlast b = Z.b2z ((sg c =? 1) && existsb ends l).
