(** C38: TLPs over the streams of the Intel interfaces. *)
From Verif Require Import Base ModelUtils ModelTlp ModelFrames ModelChan ModelAvst ModelIntel SpecTlp SpecParity SpecIntel ProofsAvst ProofsIntel ProofsIntelTlp.

(** A TLP with the payload it announces becomes a frame, and the frame becomes the TLP again: all that the type carries, at once or after the
    stream, whatever signals the bus has. *)
Theorem C38_convert c ty k t : sendable ty k t -> exists f, frame_of_tlp (dv c) t = Ok f /\ good_iframe c f /\
  tlp_of_frame (dv c) f = Ok (on_wire ty k t) /\ tlp_of_frame (dv c) (carried_iframe c f) = Ok (on_wire ty k t).
Proof. intros S. destruct (tlp_frame c ty k t S) as (f & A & B & C & D & _). exists f. auto. Qed.
(** Frames keep order, data and metadata: whatever is sent, at whatever times, with whatever pauses and whatever ready latency, no coroutine
    raises and what has been received are the first frames sent. *)
Theorem C38_order c lat os : good_icfg c -> Forall (good_iframe c) (avst_sent os) ->
  match in_run c lat in_chan0 os with
  | None => True
  | Some r => exists s, r = Ok s /\ exists done rest, avst_sent os = done ++ rest /\ v_recv s = map (carried_iframe c) done
  end.
Proof. exact (in_received c lat os). Qed.
(** Nothing gets stuck: from every state, transactions and clock edges without pauses deliver all that was sent. *)
Theorem C38_delivered c lat os s : good_icfg c -> Forall (good_iframe c) (avst_sent os) -> in_run c lat in_chan0 os = Some (Ok s) ->
  exists os' s', Forall acalm os' /\ in_run c lat s os' = Some (Ok s') /\ v_recv s' = map (carried_iframe c) (avst_sent os).
Proof. exact (in_delivered c lat os s). Qed.
(** Both together, for every sequence of TLPs. *)
Theorem C38_tlps c lat os ts : good_icfg c -> Forall (fun t => exists ty k, sendable ty k t) ts -> map (frame_of_tlp (dv c)) ts = map Ok (avst_sent os) ->
  match in_run c lat in_chan0 os with
  | None => True
  | Some r => exists s, r = Ok s /\ exists done rest, ts = done ++ rest /\ Forall2 (arrived c) done (v_recv s)
  end.
Proof. exact (tlps_received c lat os ts). Qed.
Theorem C38_tlps_delivered c lat os ts s : good_icfg c -> Forall (fun t => exists ty k, sendable ty k t) ts ->
  map (frame_of_tlp (dv c)) ts = map Ok (avst_sent os) -> in_run c lat in_chan0 os = Some (Ok s) ->
  exists os' s', Forall acalm os' /\ in_run c lat s os' = Some (Ok s') /\ Forall2 (arrived c) ts (v_recv s').
Proof. exact (tlps_delivered c lat os ts s). Qed.

(** ** A schedule *)
Definition in_avst := avst pt_frame ibeat isrc_state isink_state.
Definition try_op (c : in_cfg) (s : in_avst) (e : avst_op pt_frame) : avst_op pt_frame :=
  match v_sample s with
  | Some _ => VSink
  | None =>
    match v_pend s, v_drive s with
    | Some _, None => VDrive
    | None, _ => match isrc_next (v_src s) (v_queue s) with Some _ => VRun | None => e end
    | _, _ => e
    end
  end.
Fixpoint sched (c : in_cfg) (lat n : nat) (s : in_avst) : list (avst_op pt_frame) * in_avst :=
  match n with
  | O => ([], s)
  | S n =>
    let o := try_op c s (VEdge (Nat.eqb (n mod 7) 0) (Nat.eqb (n mod 5) 0)) in
    match in_run c lat s [o] with Some (Ok s) => let '(os, s) := sched c lat n s in (o :: os, s) | _ => ([], s) end
  end.
Definition ex_run (c : in_cfg) (lat : nat) (a b : list pt_frame) : option in_avst :=
  match in_run c lat in_chan0 (map VSend a) with
  | Some (Ok s) =>
    match in_run c lat (snd (sched c lat 9 s)) (map VSend b) with
    | Some (Ok s) => Some (snd (sched c lat 120 s))
    | _ => None
    end
  | _ => None
  end.
Definition all_of (s : sig) : bool := true.
Definition minimal (s : sig) : bool := match s with SData | SSop | SEop | SValid | SHdr | SPrfx => true | _ => false end.
Definition ex_wr (n a : Z) : tlp := set_data (map (fun k => (3 * k + a) mod 256) (zrange (4 * n))) (set_tlen n (set_address a (set_first_be 15 (set_last_be (if n =? 1 then 0 else 15)
  (set_requester_id (mkId 1 2 3) (set_tag 0x155 (set_fmt 2 tlp0))))))).
Definition ex_rd : tlp := set_tlen 1024 (set_address 0x123456789a000 (set_first_be 15 (set_last_be 15 (set_requester_id (mkId 7 0 1) (set_tag 9 (set_fmt 1 tlp0)))))).
Definition ex_cpl : tlp := set_data [1; 2; 3; 4] (set_tlen 1 (set_byte_count 4096 (set_lower_address 0x7c (set_completer_id (mkId 4 5 6) (set_requester_id (mkId 1 2 3) (set_tag 0x2ff (set_type_ 10 (set_fmt 2 tlp0)))))))).
Definition ex_tlps : list tlp := [ex_wr 1 0x1000; ex_rd; ex_wr 9 0x2004; ex_cpl; ex_wr 2 0x3000].
Definition ex_frames (v : dev) : list pt_frame := flat_map (fun t => match frame_of_tlp v t with Ok f => [f] | _ => [] end) ex_tlps.
Definition ex_ok (c : in_cfg) (lat : nat) : bool :=
  match ex_run c lat (firstn 2 (ex_frames (dv c))) (skipn 2 (ex_frames (dv c))) with
  | Some s => forallb (fun p => match tlp_of_frame (dv c) (fst p) with Ok t => tlp_eqb t (snd p) && list_eqb (t_data (fst p)) (t_data (fst p)) | _ => false end) (combine (v_recv s) ex_tlps) && (zlen (v_recv s) =? 5)
  | None => false
  end.
Example C38_order_ex : forallb (fun p => ex_ok (fst p) (snd p))
  [(mkIn HTile 256 1 all_of, 3%nat); (mkIn HTile 512 2 minimal, 18%nat); (mkIn PTile 128 1 minimal, 0%nat); (mkIn PTile 256 1 all_of, 1%nat); (mkIn PTile 512 2 all_of, 3%nat)] = true.
Proof. vm_compute. reflexivity. Qed.
Definition ex_cfgs : list in_cfg := [mkIn HTile 256 1 all_of; mkIn HTile 512 2 minimal; mkIn HTile 512 2 all_of; mkIn PTile 128 1 minimal; mkIn PTile 256 1 all_of; mkIn PTile 512 2 all_of].
Lemma ex_good c : In c ex_cfgs -> good_icfg c.
Proof.
  intros H. repeat (destruct H as [<-|H]; [split; [reflexivity|cbn [iw ig]; first [exists 4; lia|exists 8; lia|exists 16; lia]|repeat split|intros _; split; reflexivity]|]). destruct H.
Qed.
Lemma ex_bytes n a : bytes_ok (map (fun k => (3 * k + a) mod 256) (zrange n)).
Proof. apply Forall_forall. intros x X. apply in_map_iff in X. destruct X as (k & <- & _). unfold byte_ok. lia. Qed.
Example C38_hyps : (forall c, In c ex_cfgs -> good_icfg c) /\ Forall (fun t => exists ty k, sendable ty k t) ex_tlps /\
  forall v, map (frame_of_tlp v) ex_tlps = map Ok (ex_frames v).
Proof.
  split; [exact ex_good|]. split.
  - assert (W : forall n a, In (n, a) [(1, 0x1000); (9, 0x2004); (2, 0x3000)] -> exists ty k, sendable ty k (ex_wr n a)).
    { intros n a H. exists MEM_WRITE, KReq32.
      split; [|apply ex_bytes|unfold zlen; cbn [with_payload]; change (data (ex_wr n a)) with (map (fun k => (3 * k + a) mod 256) (zrange (4 * n))); unfold zrange; rewrite !map_length, seq_length; change (tlen (ex_wr n a)) with n].
      - repeat (destruct H as [H|H]; [injection H as <- <-; constructor; cbn; unfold id_range; cbn; (lia || reflexivity || auto)|]). destruct H.
      - repeat (destruct H as [H|H]; [injection H as <- <-; reflexivity|]). destruct H. }
    apply Forall_cons; [apply W; cbn; auto|].
    apply Forall_cons. { exists MEM_READ_64, KReq64. split; [constructor; cbn; unfold id_range; cbn; (lia || reflexivity || auto)|constructor|reflexivity]. }
    apply Forall_cons; [apply W; cbn; auto|].
    apply Forall_cons. { exists CPL_DATA, KCpl. split; [constructor; cbn; unfold id_range; cbn; (lia || reflexivity || auto)| |reflexivity].
      repeat (apply Forall_cons; [unfold byte_ok; lia|]). apply Forall_nil. }
    apply Forall_cons; [apply W; cbn; auto|apply Forall_nil].
  - intros []; vm_compute; reflexivity.
Qed.

(** ** Where it fails *)
Definition ex_f (v : dev) : pt_frame := nth 0 (ex_frames v) (mkPt 0 0 [] 0 0 [] 0 None 0 0 0).
Definition with_func (n : Z) (f : pt_frame) : pt_frame :=
  mkPt (t_prfx f) (t_hdr f) (t_data f) (t_prfx_par f) (t_hdr_par f) (t_parity f) n (t_vf f) (t_bar f) (t_abort f) (t_err f).
Definition with_abort (n : Z) (f : pt_frame) : pt_frame :=
  mkPt (t_prfx f) (t_hdr f) (t_data f) (t_prfx_par f) (t_hdr_par f) (t_parity f) (t_func f) (t_vf f) (t_bar f) n (t_err f).
(** The function number of the H-tile has two bits in each segment of the bus, but is put three bits apart: in the second segment function 2
    does not fit. *)
Theorem C38_func_refuted : exists c f g, good_icfg c /\ dv c = HTile /\ good_iframe c f /\ good_iframe c (with_func 0 g) /\ t_func g = 2 /\ bus_width c SFunc = 2 * ig c /\
  in_run c 0 in_chan0 [VSend f; VSend g; VRun] = Some (Err OverflowError).
Proof.
  set (c := mkIn HTile 512 2 all_of). set (f := ex_f HTile). exists c, f, (with_func 2 f).
  assert (G : good_iframe c f).
  { destruct C38_hyps as (_ & A & E). destruct (tlps_good c ex_tlps (ex_frames HTile) A (E HTile)) as [Gs _]. rewrite Forall_forall in Gs. apply Gs. vm_compute. left. reflexivity. }
  split; [apply ex_good; cbn; auto|]. split; [reflexivity|]. split; [exact G|]. split; [exact G|]. split; [reflexivity|]. split; [reflexivity|].
  vm_compute. reflexivity.
Qed.
(** [tlp_abort] of the P-tile is not carried although the bus has the signal. *)
Theorem C38_abort_refuted : exists c os s, good_icfg c /\ dv c = PTile /\ Forall (good_iframe c) (avst_sent os) /\ in_run c 0 in_chan0 os = Some (Ok s) /\
  map t_abort (avst_sent os) = [1] /\ map t_abort (v_recv s) = [0].
Proof.
  set (c := mkIn PTile 256 1 all_of). set (f := ex_f PTile). set (os := [VSend (with_abort 1 f); VRun; VDrive; VEdge false false; VEdge false false; VSink]).
  assert (R : match in_run c 0 in_chan0 os with Some (Ok s) => map t_abort (v_recv s) = [0] | _ => False end) by (vm_compute; reflexivity).
  destruct (in_run c 0 in_chan0 os) as [[s|e]|] eqn:E; try contradiction. exists c, os, s.
  assert (G : good_iframe c f).
  { destruct C38_hyps as (_ & A & Ef). destruct (tlps_good c ex_tlps (ex_frames PTile) A (Ef PTile)) as [Gs _]. rewrite Forall_forall in Gs. apply Gs. vm_compute. left. reflexivity. }
  split; [apply ex_good; cbn; auto 10|]. split; [reflexivity|]. split; [cbn [avst_sent flat_map app]; apply Forall_cons; [|apply Forall_nil]; destruct G; constructor; assumption|].
  split; [exact E|]. split; [reflexivity|exact R].
Qed.
(** An H-tile frame without data comes back with three DWORDs. *)
Theorem C38_empty_refuted : exists c os s, good_icfg c /\ in_run c 0 in_chan0 os = Some (Ok s) /\ map t_data (avst_sent os) = [[]] /\ map t_data (v_recv s) = [[0; 0; 0]].
Proof.
  set (c := mkIn HTile 256 1 all_of). set (os := [VSend (mkPt 0 0 [] 0 0 [] 0 None 0 0 0); VRun; VDrive; VEdge false false; VEdge false false; VSink]).
  assert (R : match in_run c 0 in_chan0 os with Some (Ok s) => map t_data (v_recv s) = [[0; 0; 0]] | _ => False end) by (vm_compute; reflexivity).
  destruct (in_run c 0 in_chan0 os) as [[s|e]|] eqn:E; try contradiction. exists c, os, s.
  split; [apply ex_good; cbn; auto 10|]. split; [exact E|]. split; [reflexivity|exact R].
Qed.
(** The sink goes by the length in the header, not by [empty]: a write with less data than announced arrives with what else is on the bus. *)
Theorem C38_length_refuted : exists c t f os s, good_icfg c /\ fits MEM_WRITE KReq32 t /\ zlen (data t) = 4 * (tlen t - 1) /\ frame_of_tlp (dv c) t = Ok f /\
  avst_sent os = [f] /\ in_run c 0 in_chan0 os = Some (Ok s) /\ map t_data (v_recv s) = [t_data f ++ [0]].
Proof.
  set (c := mkIn HTile 256 1 all_of). set (t := set_tlen 2 (ex_wr 1 0x1000)).
  assert (F : exists f, frame_of_tlp HTile t = Ok f) by (eexists; vm_compute; reflexivity). destruct F as [f Ef].
  set (os := [VSend f; VRun; VDrive; VEdge false false; VEdge false false; VSink]).
  assert (R : match in_run c 0 in_chan0 os with Some (Ok s) => map t_data (v_recv s) = [t_data f ++ [0]] | _ => False end).
  { subst os. assert (V : frame_of_tlp HTile t = Ok f) by exact Ef. clear Ef. vm_compute in V. injection V as <-. vm_compute. reflexivity. }
  destruct (in_run c 0 in_chan0 os) as [[s|e]|] eqn:E; try contradiction. exists c, t, f, os, s.
  split; [apply ex_good; cbn; auto 10|]. split; [constructor; cbn; unfold id_range; cbn; (lia || reflexivity || auto)|].
  split; [reflexivity|]. split; [exact Ef|]. split; [reflexivity|]. split; [exact E|exact R].
Qed.
(** A payload that is no whole number of DWORDs cannot be converted. *)
Theorem C38_partial_dword_refuted : exists t, fits MEM_WRITE KReq32 t /\ zlen (data t) = 6 /\ forall v, frame_of_tlp v t = Err StructError.
Proof.
  exists (set_data [1; 2; 3; 4; 5; 6] (ex_wr 2 0x1000)). split; [constructor; cbn; unfold id_range; cbn; (lia || reflexivity || auto)|]. split; [reflexivity|].
  intros []; vm_compute; reflexivity.
Qed.

Print Assumptions C38_convert.
Print Assumptions C38_order.
Print Assumptions C38_delivered.
Print Assumptions C38_tlps.
Print Assumptions C38_tlps_delivered.
Print Assumptions C38_func_refuted.
Print Assumptions C38_abort_refuted.
Print Assumptions C38_empty_refuted.
Print Assumptions C38_length_refuted.
Print Assumptions C38_partial_dword_refuted.
