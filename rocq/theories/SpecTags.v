(** Specification of tag handling. *)
From Verif Require Import Base ModelTlp ModelRegion ModelTags.

Definition treach (rc : bool) (s : tags) : Prop := exists es, trun es (tags_new rc) = Ok s.

(** The tag that belongs to an operation: from its allocation to the end of the operation; after an
    exception in [send] for ever. *)
Definition tag_of (o : op) : option Z :=
  match o with OSend _ t | ORecv _ t _ | OFailed _ t => Some t | _ => None end.
Definition request_of (o : op) : option tlp :=
  match o with OIdle => None | OAlloc r _ | OSend r _ | ORecv r _ _ | ODone r _ _ | OFailed r _ => Some r end.
(** The completions that an operation has got so far, and the tag it used for them. *)
Definition got (o : op) : list (nat * tlp) := match o with ORecv _ _ l | ODone _ _ l => l | _ => [] end.
Definition used_tag (o : op) : option Z :=
  match o with OSend _ t | ORecv _ t _ | ODone _ t _ | OFailed _ t => Some t | _ => None end.

Definition arrived (t : Z) (l : list hist) : list (nat * tlp) :=
  flat_map (fun e => match e with HArrive o c => if tag c =? t then [(o, c)] else [] | _ => [] end) l.
Definition delivered (t : Z) (l : list hist) : list (nat * tlp) :=
  flat_map (fun e => match e with HTake _ o c => if tag c =? t then [(o, c)] else [] | _ => [] end) l.
Definition delivered_to (i : nat) (l : list hist) : list (nat * tlp) :=
  flat_map (fun e => match e with HTake j o c => if Nat.eqb j i then [(o, c)] else [] | _ => [] end) l.
(** The completions that were sent in answer to operation [i]. *)
Definition answers (i : nat) (l : list hist) : list tlp :=
  flat_map (fun e => match e with HArrive o c => if Nat.eqb o i then [c] else [] | _ => [] end) l.

(** Completers that answer only requests that are outstanding, with the tag of the request, and send
    nothing after the completion that ends the request. *)
Definition in_time (e : tevent) (s : tags) : Prop :=
  match e with
  | TCpl o c => exists r, (t_op s o = OSend r (tag c) \/ exists l, t_op s o = ORecv r (tag c) l) /\
                Forall (fun c => ends r c = false) (answers o (t_hist s))
  | _ => True
  end.
(** The same without looking whether the operation is still waiting, for executions without timeouts. *)
Definition patient (e : tevent) (s : tags) : Prop :=
  match e with
  | TCpl o c => exists r, request_of (t_op s o) = Some r /\ used_tag (t_op s o) = Some (tag c) /\
                (forall r t, t_op s o <> OFailed r t) /\
                Forall (fun c => ends r c = false) (answers o (t_hist s))
  | TTimeout _ => False
  | _ => True
  end.
Fixpoint along (P : tevent -> tags -> Prop) (es : list tevent) (s : tags) : Prop :=
  match es with
  | [] => True
  | e :: r => P e s /\ match tstep e s with Ok s' => along P r s' | Err _ => True end
  end.
(** Completions with a tag that exists. *)
Definition cpl_tags (e : tevent) (s : tags) : Prop := match e with TCpl _ c => 0 <= tag c < 256 | _ => True end.
