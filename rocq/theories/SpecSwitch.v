(** Switches: what becomes of every TLP. *)
From Verif Require Import Base ModelUtils ModelTlp ModelAttrs ModelCapList ModelConfig SpecBar SpecRoute ModelRoute.

(** A bridge without BARs, as all ports are. *)
Definition no_bars : list entry := [None; None].
Definition plain (f : fnc) : Prop := laid_out (f_attr f) 0 no_bars.
(** A TLP of a type that is routed (see C29), well formed. *)
Definition good (t : tlp) : Prop := tlp_check t = Ok true /\ 0 <= address t /\ exists ty, fmt_type t = Ok ty /\ route_of ty t <> TNone.
Definition type_of (t : tlp) : tlp_type := match fmt_type t with Ok ty => ty | Err _ => CPL end.
Definition target (t : tlp) : route := route_of (type_of t) t.
(** The same TLP, except that a type 1 configuration request may have become one of type 0. *)
Definition same_tlp (t t' : tlp) : Prop :=
  t' = t \/ t' = set_type_ 4 t /\ (type_of t = CFG_READ_1 /\ type_of t' = CFG_READ_0 \/ type_of t = CFG_WRITE_1 /\ type_of t' = CFG_WRITE_0).
(** [c] is a completion for [t]. *)
Definition answers (c t : tlp) : Prop :=
  good c /\ (type_of c = CPL \/ type_of c = CPL_DATA) /\ requester_id c = requester_id t /\ tag c = tag t /\ tc c = tc t /\ ModelTlp.attr c = ModelTlp.attr t.

(** Where the TLPs are: in the queues of a switch with [n] ports, or gone. *)
Definition in_ing (n : nat) (s : sw) : list pkt := concat (map (sw_ing s) (List.seq 0 n)).
Definition in_q (n : nat) (s : sw) : list pkt := concat (map (fun i => concat (map (sw_q s i) (List.seq 0 n))) (List.seq 0 n)).
Definition gone (e : ev) : list pkt := match e with EIn _ _ => [] | EOut _ p | EKept _ p | EFree _ p _ => [p] end.
Definition made (e : ev) : list pkt := match e with EIn _ p => [p] | EFree _ _ (Some c) => [c] | _ => [] end.
Definition all_pkts (n : nat) (s : sw) : list pkt := in_ing n s ++ in_q n s ++ flat_map gone (sw_log s).
(** What an operation may be. *)
Definition sop_ok (n : nat) (o : sop) : Prop :=
  match o with
  | SIn i t => (i < n)%nat /\ good t
  | SRoute i => (i < n)%nat
  | STransfer i j => (i < n)%nat /\ (j < n)%nat
  end.
(** What port [j] claims: TLPs for its bridge and, if [j] is the upstream port, for what is not behind it, otherwise for what is. *)
Definition wants (f : fnc) (j : nat) (r : route) : bool := own f no_bars r || (if Nat.eqb j 0 then negb (behind f r) else behind f r).
(** How many steps a TLP has before it. *)
Definition is_cpl (t : tlp) : bool := match type_of t with CPL | CPL_DATA | CPL_LOCKED | CPL_LOCKED_DATA => true | _ => false end.
Definition work (n : nat) (s : sw) : nat :=
  list_sum (map (fun p => if is_cpl (snd p) then 2 else 4)%nat (in_ing n s)) + list_sum (map (fun p => if is_cpl (snd p) then 1 else 3)%nat (in_q n s)).
(** An operation of the switch itself that has something to do. *)
Definition busy (o : sop) (s : sw) : bool :=
  match o with
  | SIn _ _ => false
  | SRoute i => match sw_ing s i with [] => false | _ => true end
  | STransfer i j => match sw_q s i j with [] => false | _ => true end
  end.
Definition port_wants (s : sw) (r : route) (j : nat) : bool := match nth_error (sw_br s) j with Some f => wants f j r | None => false end.
(** No configuration writes, so that windows and bus numbers stay. *)
Definition no_write (t : tlp) : Prop := type_of t <> CFG_WRITE_0 /\ type_of t <> CFG_WRITE_1.
Definition quiet (o : sop) : Prop := match o with SIn _ t => no_write t | _ => True end.
(** TLP [t] belongs on the link of port [j] of a switch with ports [B]. *)
Definition belongs (root : bool) (B : list fnc) (j : nat) (t : tlp) : Prop :=
  match nth_error B j with
  | None => False
  | Some f => if Nat.eqb j 0 then local_cfg (target t) = false /\ (root = true \/ behind f (target t) = false) else behind f (target t) = true
  end.
