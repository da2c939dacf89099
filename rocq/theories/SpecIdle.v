(** Vocabulary for idle sources. *)
From Verif Require Import Base ModelIdle.

(** [_run] has nothing to do: a transaction waits, or there is nothing to make one of. *)
Definition settled (s : src) : Prop := z_d s <> 0 \/ (z_r s = 0 /\ z_q s = []).
(** The source never gets an edge between [send] and the turn of [_run] after it, and [clear] is not called while a frame is under way. *)
Fixpoint tidy (us lat : bool) (es : list zlabel) (s : src) : Prop :=
  match es with
  | [] => True
  | e :: r => match e with ZEdge _ _ _ => settled s | ZClear => z_r s = 0 /\ z_d s = 0 /\ z_v s = 0 | _ => True end /\ match z_step us lat e s with Some s' => tidy us lat r s' | None => True end
  end.
(** Nothing is thrown away. *)
Definition no_reset (e : zlabel) : Prop := match e with ZEdge _ _ rst => rst = false | ZClear => False | _ => True end.
(** Nothing new is sent, and nothing holds the source up. *)
Definition flowing (e : zlabel) : Prop := match e with ZSend _ | ZClear => False | ZRun _ _ => True | ZEdge rd p rst => rd = true /\ p = false /\ rst = false end.
Definition is_edge (e : zlabel) : bool := match e with ZEdge _ _ _ => true | _ => false end.
Definition edges (es : list zlabel) : Z := zlen (filter is_edge es).
(** Everything that was sent is through, but for what resets and [clear] took away. *)
Definition all_through (s : src) : Prop := z_sent s = z_taken s + z_lost s.

(** Frames that ended less those that were received or cleared *)
Fixpoint waiting (es : list slabel) (n : Z) : Z :=
  match es with
  | [] => n
  | YBeat ends :: r => waiting r (n + zlen (filter id ends))
  | YRecv :: r => waiting r (n - 1)
  | YClear :: r => waiting r 0
  end.
(** A frame has begun and not ended: the last segment was one of it, but not its end. *)
Fixpoint frame_open (es : list slabel) (b : bool) : bool :=
  match es with
  | [] => b
  | YBeat ends :: r => frame_open r (negb (last ends false))
  | _ :: r => frame_open r b
  end.
(** Nothing is behind the end of a frame in the same word. *)
Definition end_last (e : slabel) : Prop := match e with YBeat ends => exists n b, ends = repeat false n ++ [b] | _ => True end.
