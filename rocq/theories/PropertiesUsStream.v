(** C37: frames over the UltraScale streams. *)
From Verif Require Import SpecUsLayout ProofsUsLayout.
From Verif Require Import Base ModelUtils ModelFrames ModelChan ModelUsStream SpecUsStream ProofsUsStream ProofsChan ProofsUsSink.

(** Whatever is sent, at whatever times, and whatever the pauses of source and sink: no coroutine raises, and what has been received are
    the first frames sent, in order, with everything the interface carries; only the discontinue mark may be on too many. *)
Theorem C37_received_partial c os : good_cfg c -> Forall (good_frame c) (sent_frames os) ->
  match us_chan_run c (us_chan0 c) os with
  | None => True
  | Some r => exists st, r = Ok st /\ exists done rest, sent_frames os = done ++ rest /\ Forall2 (received c) done (c_recv st)
  end.
Proof. exact (us_stream_received c os). Qed.
(** With one segment, or no discontinued frames, exactly the frames sent. *)
Theorem C37_order c os : good_cfg c -> Forall (good_frame c) (sent_frames os) -> sg c = 1 \/ Forall (fun f => us_disc f = false) (sent_frames os) ->
  match us_chan_run c (us_chan0 c) os with
  | None => True
  | Some r => exists st, r = Ok st /\ exists done rest, sent_frames os = done ++ rest /\ c_recv st = map (carried_frame c) done
  end.
Proof. exact (us_stream_exact c os). Qed.
(** Nothing gets stuck: from every state, transactions and clock edges without pauses deliver all that was sent. *)
Theorem C37_delivered c os st : good_cfg c -> Forall (good_frame c) (sent_frames os) -> us_chan_run c (us_chan0 c) os = Some (Ok st) ->
  exists os' st', Forall calm os' /\ us_chan_run c st (OWake :: os') = Some (Ok st') /\ Forall2 (received c) (sent_frames os) (c_recv st') /\
    (sg c = 1 \/ Forall (fun f => us_disc f = false) (sent_frames os) -> c_recv st' = map (carried_frame c) (sent_frames os)).
Proof. exact (us_stream_all c os st). Qed.

(** ** A schedule *)
Definition try_ops (c : us_cfg) (st : chan us_frame beat src_state (option us_frame)) (e : chan_op us_frame) : chan_op us_frame :=
  match c_sample st with
  | Some _ => OSink
  | None =>
    match c_pend st, c_drive st with
    | Some _, None => ODrive
    | None, _ => match us_produce c (c_src st) (c_queue st) with Some _ => ORun | None => e end
    | _, _ => e
    end
  end.
Fixpoint sched (c : us_cfg) (n : nat) (st : chan us_frame beat src_state (option us_frame)) : list (chan_op us_frame) :=
  match n with
  | O => []
  | S n =>
    (* a paused edge now and then, and the end of the pause *)
    let e := if c_kwait st && negb (c_ready st) && Nat.eqb (n mod 3) 0 then OWake else OEdge (Nat.eqb (n mod 7) 0) (Nat.eqb (n mod 5) 0) (negb (Nat.eqb (n mod 5) 1)) in
    let o := try_ops c st e in
    o :: match chan_step (us_produce c) (sink_beat c) st o with Some (Ok st) => sched c n st | _ => [] end
  end.
Definition fr (n base : Z) (d : bool) : us_frame :=
  mkUs (map (fun k => base + k) (zrange n)) (map (fun k => k mod 16) (zrange n)) (map (fun k => (base + k) mod 16) (zrange n)) 15 (base mod 16) d (base mod 16).
Definition frames1 : list us_frame := [fr 3 0x1000 false; fr 17 0x2005 false; fr 1 0x300f false; fr 8 0xfffffff0 false; fr 40 0x77 false; fr 4 0x100 false; fr 9 0x200 false].
Definition ex_ops (c : us_cfg) (fs : list us_frame) : list (chan_op us_frame) :=
  let a := map OSend (firstn 3 fs) in
  let s1 := match us_chan_run c (us_chan0 c) a with Some (Ok st) => sched c 9 st | _ => [] end in
  let b := map OSend (skipn 3 fs) in
  let s2 := match us_chan_run c (us_chan0 c) (a ++ s1 ++ b) with Some (Ok st) => sched c 400 st | _ => [] end in
  a ++ s1 ++ b ++ s2.
Definition ex_cfgs : list us_cfg :=
  [mkUsCfg Rq 64 1 60; mkUsCfg Rq 128 1 62; mkUsCfg Rq 512 1 137; mkUsCfg Rq 512 2 137; mkUsCfg Rc 64 1 75; mkUsCfg Rc 256 1 75; mkUsCfg Rc 256 2 75; mkUsCfg Rc 512 2 161; mkUsCfg Rc 512 4 161;
   mkUsCfg Cq 64 1 85; mkUsCfg Cq 256 1 88; mkUsCfg Cq 512 2 183; mkUsCfg Cc 128 1 33; mkUsCfg Cc 512 1 81; mkUsCfg Cc 512 2 81].
Definition lz_eqb (a b : list Z) : bool := if list_eq_dec Z.eq_dec a b then true else false.
Definition us_eqb (a b : us_frame) : bool :=
  lz_eqb (us_data a) (us_data b) && lz_eqb (us_byte_en a) (us_byte_en b) && lz_eqb (us_parity a) (us_parity b) && (us_first_be a =? us_first_be b) && (us_last_be a =? us_last_be b) &&
  Bool.eqb (us_disc a) (us_disc b) && (us_seq a =? us_seq b).
Fixpoint list_eqb (a b : list us_frame) : bool := match a, b with [], [] => true | x :: a, y :: b => us_eqb x y && list_eqb a b | _, _ => false end.
Definition ex_result (c : us_cfg) : bool :=
  match us_chan_run c (us_chan0 c) (ex_ops c frames1) with
  | Some (Ok st) => list_eqb (c_recv st) (map (carried_frame c) frames1) && (zlen (sent_frames (ex_ops c frames1)) =? 7)
  | _ => false
  end.
Example C37_order_ex : forallb ex_result ex_cfgs = true.
Proof. vm_compute. reflexivity. Qed.
Lemma fr_good c n base : 0 < n -> 0 <= base -> base + n <= 2 ^ 32 -> good_frame c (fr n base false).
Proof.
  intros H B M. constructor; cbn [us_data us_byte_en us_parity us_first_be us_last_be us_seq fr].
  - unfold zrange. destruct (Z.to_nat n) eqn:E; [lia|]. discriminate.
  - apply Forall_forall. intros x X. apply in_map_iff in X. destruct X as (k & <- & X). apply in_zrange in X. lia.
  - rewrite !map_length. reflexivity.
  - apply Forall_forall. intros x X. apply in_map_iff in X. destruct X as (k & <- & X). lia.
  - destruct (kd c); try exact Logic.I; (split; [rewrite !map_length; reflexivity|]; apply Forall_forall; intros x X; apply in_map_iff in X; destruct X as (k & <- & X); lia).
  - destruct (kd c); try exact Logic.I; lia.
  - destruct (kd c); try exact Logic.I. destruct (_ || _); lia.
Qed.
Example C37_order_hyps : forall c, In c ex_cfgs -> good_cfg c /\ Forall (good_frame c) frames1 /\ Forall (fun f => us_disc f = false) frames1.
Proof.
  intros c H. split; [|split].
  - repeat (destruct H as [<-|H]; [split; [reflexivity|cbn; lia]|]). destruct H.
  - repeat (apply Forall_cons; [apply fr_good; lia|]). apply Forall_nil.
  - repeat constructor.
Qed.
(** the states of [C37_delivered] *)
Example C37_delivered_ex : let c := mkUsCfg Rc 512 4 161 in
  exists st, us_chan_run c (us_chan0 c) (map OSend frames1 ++ [ORun; ODrive; OEdge false true true; OEdge false true true; ORun]) = Some (Ok st) /\ c_recv st = [] /\ c_kwait st = true.
Proof. eexists. split; [vm_compute; reflexivity|]. split; reflexivity. Qed.
Example C37_received_ex : let c := mkUsCfg Cq 512 2 183 in let fs := [fr 3 0x1000 false; fr 4 0x2000 true] in
  exists st, us_chan_run c (us_chan0 c) (map OSend fs ++ [ORun; ODrive; OEdge false false true; OEdge false false true; OSink]) = Some (Ok st) /\ length (c_recv st) = 2%nat.
Proof. eexists. split; vm_compute; reflexivity. Qed.

(** ** Where it fails *)
(** The discontinue bit is one for the transaction: a frame in the same beat as a discontinued one is marked too. *)
Theorem C37_discontinue_refuted : exists c os st, good_cfg c /\ Forall (good_frame c) (sent_frames os) /\ us_chan_run c (us_chan0 c) os = Some (Ok st) /\
  exists f g, sent_frames os = [f; fr 4 0x2000 true] /\ c_recv st = [g; carried_frame c (fr 4 0x2000 true)] /\ us_disc f = false /\ us_disc g = true.
Proof.
  exists (mkUsCfg Cq 512 2 183), (map OSend [fr 3 0x1000 false; fr 4 0x2000 true] ++ [ORun; ODrive; OEdge false false true; OEdge false false true; OSink]). eexists.
  split; [split; [reflexivity|left; cbn; lia] || (split; [reflexivity|right; cbn; lia])|]. split.
  - cbn [map app sent_frames flat_map]. apply Forall_cons; [apply fr_good; lia|]. apply Forall_cons; [|apply Forall_nil].
    destruct (fr_good (mkUsCfg Cq 512 2 183) 4 0x2000 ltac:(lia) ltac:(lia) ltac:(lia)) as [A1 A2 A3 A4 A5 A6 A7]. constructor; assumption.
  - split; [vm_compute; reflexivity|]. eexists. eexists. split; [reflexivity|]. split; [vm_compute; reflexivity|]. split; reflexivity.
Qed.
(** Two segments in 64 or 128 bits are accepted on RC, but the sink then never sees a start of a frame and raises. *)
Theorem C37_narrow_refuted : exists c os, us_init_ok c = true /\ Forall (good_frame c) (sent_frames os) /\ us_chan_run c (us_chan0 c) os = Some (Err AttributeError).
Proof.
  exists (mkUsCfg Rc 128 2 75), (map OSend [fr 3 0x1000 false] ++ [ORun; ODrive; OEdge false false true; OEdge false false true; OSink]). split; [reflexivity|]. split.
  - cbn [map app sent_frames flat_map]. apply Forall_cons; [apply fr_good; lia|apply Forall_nil].
  - vm_compute. reflexivity.
Qed.
(** A frame without data comes back with a DWORD when straddling. *)
Theorem C37_empty_refuted : exists c os st, good_cfg c /\ us_chan_run c (us_chan0 c) os = Some (Ok st) /\ sent_frames os = [us_frame0] /\ map us_data (c_recv st) = [[0]].
Proof.
  exists (mkUsCfg Rq 512 2 137), (map OSend [us_frame0] ++ [ORun; ODrive; OEdge false false true; OEdge false false true; OSink]). eexists.
  split; [split; [reflexivity|right; cbn; lia]|]. split; [vm_compute; reflexivity|]. split; reflexivity.
Qed.
(** With a 60 bit tuser only four bits of the sequence number are carried. *)
Theorem C37_seq_refuted : exists os st, let c := mkUsCfg Rq 64 1 60 in good_cfg c /\ us_chan_run c (us_chan0 c) os = Some (Ok st) /\ map us_seq (sent_frames os) = [0x25] /\ map us_seq (c_recv st) = [5].
Proof.
  exists (map OSend [mkUs [1] [] [2] 15 0 false 0x25] ++ [ORun; ODrive; OEdge false false true; OEdge false false true; OSink]). eexists.
  split; [split; [reflexivity|left; reflexivity]|]. split; [vm_compute; reflexivity|]. split; reflexivity.
Qed.

(** ** The fields on the bus *)
(** Every beat of a source, from every state of it, carries the pieces of packets that are next, with each field where the tables of the
    product guides have it, and nothing is started or ended besides.  Missing from the full statement: first and last byte enables of a CQ packet that
    starts in the second segment behind the end of another one ([kd c = Rq \/ sg c = 1 \/ ...] in [laid_out]), for which it is false. *)
Theorem C37_layout_partial : forall c cur q b s q', good_cfg c -> under_way c cur -> Forall (good_frame c) q -> src_beat c (state_of cur) q = Some (Ok (b, s, q')) ->
  exists l cur', pieces (seg_lanes c) (Z.to_nat (sg c)) cur q = (l, cur', q') /\ s = state_of cur' /\ under_way c cur' /\ Forall (good_frame c) q' /\ l <> [] /\ laid_out c l b.
Proof. exact source_layout. Qed.
Definition layout_ex (c : us_cfg) (cur : option (us_frame * Z)) (q : list us_frame) : option (Z * list (Z * Z * Z)) :=
  match src_beat c (state_of cur) q with
  | Some (Ok (b, _, _)) => Some (tuser b, map (fun p => (zlen (us_data (p_f p)), p_off p, p_cnt p)) (fst (fst (pieces (seg_lanes c) (Z.to_nat (sg c)) cur q))))
  | _ => None
  end.
Example C37_layout_ex : layout_ex (mkUsCfg Cq 256 1 88) None [fr 3 0x1000 false; fr 4 0x2000 true] = Some (0xf + 0x21000 + 2 ^ 40 + 0xfffff210 * 2 ^ 53, [(3, 0, 3)]) /\
  layout_ex (mkUsCfg Rc 512 4 161) (Some (fr 9 0x2005 false, 8)) [fr 3 0x1000 false; fr 4 0x2000 true; fr 40 0x77 false] = 
    Some (0x3210321002100008 + 7 * 2 ^ 64 + 0x39 * 2 ^ 68 + 7 * 2 ^ 76 + 0xb60 * 2 ^ 80 + 2 ^ 96 + 0xa9873210f210fffd * 2 ^ 97, [(9, 8, 1); (3, 0, 3); (4, 0, 4); (40, 0, 4)]).
Proof. vm_compute. split; reflexivity. Qed.
(** The byte enables of a CQ packet are placed by segment, not by packet: behind the end of another packet, those of the first packet that starts in
    the beat are in the place of the second one's, and [first_be[3:0]] is zero. *)
Theorem C37_layout_refuted : exists c cur q b s q' l1 p l2, good_cfg c /\ under_way c cur /\ Forall (good_frame c) q /\ src_beat c (state_of cur) q = Some (Ok (b, s, q')) /\
  fst (fst (pieces (seg_lanes c) (Z.to_nat (sg c)) cur q)) = l1 ++ p :: l2 /\ starts p = true /\ count starts l1 = 0 /\
  us_first_be (p_f p) = 15 /\ slot_at c (FirstBe 0) = Some (0, 4) /\ tuser b mod 2 ^ 4 = 0.
Proof.
  exists (mkUsCfg Cq 512 2 183), (Some (fr 9 0x2005 false, 8)), [fr 3 0x1000 false]. eexists. eexists. eexists. exists [mkPiece (fr 9 0x2005 false) 8 1]. eexists. eexists.
  split; [split; [reflexivity|right; cbn; lia]|]. split; [split; [apply fr_good; lia|vm_compute; split; [discriminate|reflexivity]]|]. split; [constructor; [apply fr_good; lia|constructor]|].
  split; [vm_compute; reflexivity|]. split; [vm_compute; reflexivity|]. repeat split.
Qed.

Print Assumptions C37_received_partial.
Print Assumptions C37_order.
Print Assumptions C37_delivered.
Print Assumptions C37_discontinue_refuted.
Print Assumptions C37_narrow_refuted.
Print Assumptions C37_empty_refuted.
Print Assumptions C37_seq_refuted.
Print Assumptions C37_layout_partial.
Print Assumptions C37_layout_refuted.
