(** C72: the idle flags of the sources of the streams. *)
From Verif Require Import Base ModelIdle SpecIdle ProofsIdle.

(** [wait] returns only if everything is through, if no edge comes between [send] and the next turn of [_run] and [clear] is not called while a frame is under way ... *)
Theorem C72_wait_partial : forall us lat es s, tidy us lat es src0 -> z_run us lat es src0 = Some s -> z_idle s = true ->
  all_through s /\ (Forall no_reset es -> z_sent s = z_taken s).
Proof.
  intros us lat es s T H X. pose proof (wait_right us lat es s T H X) as A. split; [exact A|]. intros F. pose proof (lost_none us lat es src0 s F H) as L.
  change (z_lost src0) with 0 in L. unfold all_through in A. lia.
Qed.
(** ... and then it returns, however much is waiting, after at most twice as many edges and one at which nothing holds the source up. *)
Theorem C72_ends_partial : forall us lat es more s s', tidy us lat (es ++ more) src0 -> z_run us lat es src0 = Some s -> z_run us lat more s = Some s' ->
  Forall flowing more -> 2 * (z_sent s - z_taken s - z_lost s) < edges more -> z_idle s' = true /\ all_through s'.
Proof. exact wait_ends0. Qed.
(** [idle] is right just after an edge, without resets. *)
Theorem C72_idle_partial : forall us lat es rd p s, tidy us lat (es ++ [ZEdge rd p false]) src0 -> Forall no_reset es ->
  z_run us lat (es ++ [ZEdge rd p false]) src0 = Some s -> z_is_idle s = true -> all_through s.
Proof. exact idle_right. Qed.
(** While paused, the source puts nothing new on the bus and keeps what it has. *)
Theorem C72_paused : forall us lat rd rst s s', z_step us lat (ZEdge rd true rst) s = Some s' -> z_d s' = z_d s /\ z_r s' = z_r s /\ z_q s' = z_q s /\ (z_v s' = z_v s \/ z_v s' = 0).
Proof. exact paused_holds. Qed.
Example C72_paused_ex : match z_run true false [ZSend 3; ZRun 1 2; ZEdge true true false] src0 with Some s => z_d s = 2 /\ z_v s = 0 | None => False end.
Proof. vm_compute. repeat split. Qed.
(** Two frames, of 3 and 1, with beats of 2; the sink is not ready at first.  After that nothing is left, and [wait] returns. *)
Definition zx1 : list zlabel := [ZEdge true false false; ZSend 3; ZRun 1 2; ZSend 1; ZEdge false false false; ZRun 0 1; ZEdge false false false].
Definition zx2 : list zlabel := [ZEdge true false false; ZRun 1 1; ZEdge true false false; ZEdge true false false; ZEdge true false false; ZEdge true false false;
  ZEdge true false false; ZEdge true false false; ZEdge true false false; ZEdge true false false].
Example C72_ex : forall us, tidy us false (zx1 ++ zx2) src0 /\ Forall flowing zx2 /\ Forall no_reset (zx1 ++ zx2) /\
  match z_run us false zx1 src0 with
  | Some s => z_idle s = false /\ z_is_idle s = false /\ 2 * (z_sent s - z_taken s - z_lost s) = 8 /\ edges zx2 = 9 /\
    match z_run us false zx2 s with Some s' => z_idle s' = true /\ z_is_idle s' = true /\ z_taken s' = 4 | None => False end
  | None => False
  end.
Proof.
  intros us. split; [destruct us; vm_compute; repeat split; first [right; split; reflexivity | left; discriminate]|].
  split; [repeat constructor|]. split; [repeat constructor|]. destruct us; vm_compute; repeat split.
Qed.
(** With a ready latency: only the cycles after the edges with [true] are used. *)
Definition zx3 : list zlabel := [ZEdge true false false; ZSend 3; ZRun 1 2; ZEdge false false false; ZEdge true false false; ZRun 0 1; ZEdge false false false; ZEdge true false false; ZEdge false false false].
Example C72_latency_ex : tidy false true zx3 src0 /\ match z_run false true zx3 src0 with Some s => z_idle s = true /\ z_is_idle s = true /\ z_taken s = 3 | None => False end /\
  match z_run false true (firstn 7 zx3) src0 with Some s => z_idle s = false /\ z_is_idle s = false /\ z_taken s = 2 | None => False end.
Proof. split; [vm_compute; repeat split; first [right; split; reflexivity | left; discriminate]|]. vm_compute. repeat split. Qed.
(** Otherwise [wait] may return at once: [send] just before the source finds that it has nothing to do. *)
Theorem C72_wait_refuted : forall us, exists es s, z_run us false es src0 = Some s /\ Forall no_reset es /\ z_idle s = true /\ z_taken s = 1 /\ z_sent s = 2 /\ z_q s = [1].
Proof.
  intros us. exists [ZSend 1; ZRun 1 1; ZEdge true false false; ZSend 1; ZEdge true false false].
  destruct us; eexists; (split; [vm_compute; reflexivity|]); (split; [repeat constructor|]); repeat split.
Qed.
(** [idle] is wrong between [send] and the next edge, as a transaction in [drive_obj] is overlooked. *)
Theorem C72_idle_refuted : forall us, exists es s, tidy us false es src0 /\ z_run us false es src0 = Some s /\ Forall no_reset es /\ z_is_idle s = true /\ z_sent s = 1 /\ z_taken s = 0.
Proof.
  intros us. exists [ZEdge true false false; ZSend 1; ZRun 1 1].
  destruct us; eexists; (split; [vm_compute; repeat split; right; split; reflexivity|]); (split; [vm_compute; reflexivity|]); (split; [repeat constructor|]); repeat split.
Qed.
(** A reset takes what is on the bus away: [wait] returns, but a beat was not taken. *)
Theorem C72_reset_refuted : forall us, exists es s, tidy us false es src0 /\ z_run us false es src0 = Some s /\ z_idle s = true /\ z_sent s = 3 /\ z_taken s = 1.
Proof.
  intros us. exists [ZEdge true false false; ZSend 3; ZRun 1 2; ZEdge true false false; ZRun 0 1; ZEdge false false true; ZEdge true false false; ZEdge true false false].
  destruct us; eexists; (split; [vm_compute; repeat split; first [right; split; reflexivity | left; discriminate]|]); (split; [vm_compute; reflexivity|]); repeat split.
Qed.
(** [clear] sets the event while the rest of a frame still goes out. *)
Theorem C72_clear_refuted : forall us, exists es s s', z_run us false es src0 = Some s /\ z_idle s = true /\ z_taken s + z_lost s < z_sent s /\
  z_run us false [ZRun 0 1; ZEdge true false false; ZEdge true false false] s = Some s' /\ z_taken s' = z_taken s + 3.
Proof.
  intros us. exists [ZEdge true false false; ZSend 3; ZSend 5; ZRun 1 2; ZEdge true false false; ZClear].
  destruct us; do 2 eexists; (split; [vm_compute; reflexivity|]); (split; [reflexivity|]); (split; [vm_compute; reflexivity|]); (split; [vm_compute; reflexivity|]); reflexivity.
Qed.

(** ** Sinks *)
(** [wait] of a sink returns if, and only if, there is a frame to receive, whether it is called then or sleeps already (and is woken by the event). *)
Theorem C72_sink_wait : forall es s, zs_run es snk0 = Some s -> 0 <= waiting es 0 /\ (zs_wait s = true <-> 0 < waiting es 0) /\ (zs_ev s = true <-> 0 < waiting es 0).
Proof. intros es s H. destruct (sink_wait es snk0 s (Z.le_refl 0) eq_refl H) as (A & B & C). change (zs_n snk0) with 0 in A. unfold zs_wait. rewrite C, A in *. lia. Qed.
(** [idle] of a sink is true if, and only if, no frame is being received, if nothing is behind the end of a frame in the same word, as with one segment ... *)
Theorem C72_sink_idle_partial : forall es s, Forall end_last es -> zs_run es snk0 = Some s -> zs_is_idle s = negb (frame_open es false).
Proof. intros es s F H. unfold zs_is_idle. f_equal. exact (sink_idle es snk0 s false eq_refl F H). Qed.
Definition yx : list slabel := [YBeat [false; false]; YBeat [false; true]; YBeat [true]; YRecv; YBeat [false]].
Example C72_sink_ex : Forall end_last yx /\ match zs_run yx snk0 with Some s => zs_is_idle s = false /\ zs_wait s = true /\ waiting yx 0 = 1 /\ frame_open yx false = true | None => False end /\
  match zs_run (yx ++ [YRecv]) snk0 with Some s => zs_wait s = false | None => False end.
Proof.
  split; [|vm_compute; repeat split]. repeat constructor.
  - exists 1%nat, false. reflexivity.
  - exists 1%nat, true. reflexivity.
  - exists 0%nat, true. reflexivity.
  - exists 0%nat, false. reflexivity.
Qed.
(** ... otherwise a sink says that it is idle in the middle of a frame. *)
Theorem C72_sink_idle_refuted : exists es s, zs_run es snk0 = Some s /\ zs_is_idle s = true /\ frame_open es false = true.
Proof. exists [YBeat [false; false]; YBeat [true; false]]. eexists. split; [vm_compute; reflexivity|]. split; reflexivity. Qed.

Print Assumptions C72_wait_partial.
Print Assumptions C72_ends_partial.
Print Assumptions C72_idle_partial.
Print Assumptions C72_paused.
Print Assumptions C72_wait_refuted.
Print Assumptions C72_idle_refuted.
Print Assumptions C72_reset_refuted.
Print Assumptions C72_clear_refuted.
Print Assumptions C72_sink_wait.
Print Assumptions C72_sink_idle_partial.
Print Assumptions C72_sink_idle_refuted.
