(** Specification of the link, in terms of what the log says happened. *)
From Verif Require Import Base ModelTlp SpecTlp ModelDllp ModelPort.

(** Credits of a TLP (PCIe base specification, section 2.6.1): one header credit, and one data credit
    for each four DWORDs of payload or part of them, in the class of the TLP. *)
Definition credits (k : bool) (ty : fc_type) (t : tlp) : Z :=
  match fc_class (fmt t) (type_ t) with
  | Some c => if fc_eqb c ty then if k then (zlen (data t) / 4 + 3) / 4 else 1 else 0
  | None => 0
  end.
Fixpoint sum_credits (k : bool) (ty : fc_type) (l : list tlp) : Z :=
  match l with [] => 0 | t :: r => credits k ty t + sum_credits k ty r end.

Definition gated (s : bool) (l : list entry) : list tlp :=
  flat_map (fun e => match e with LGate x t => if Bool.eqb x s then [t] else [] | _ => [] end) l.
Definition transmitted (s : bool) (l : list entry) : list tlp :=
  flat_map (fun e => match e with LTx x t => if Bool.eqb x s then [t] else [] | _ => [] end) l.
Definition received (s : bool) (l : list entry) : list tlp :=
  flat_map (fun e => match e with LRx x t => if Bool.eqb x s then [t] else [] | _ => [] end) l.
Definition handled (s : bool) (l : list entry) : list tlp :=
  flat_map (fun e => match e with LHandle x t => if Bool.eqb x s then [t] else [] | _ => [] end) l.
(** The n-th TLP received by [s] has been released (once or more often). *)
Definition released (s : bool) (l : list entry) (n : nat) : bool :=
  existsb (fun e => match e with LRelease x m => Bool.eqb x s && Nat.eqb n m | _ => false end) l.

(** The credits of those received TLPs that have been released, each counted once. *)
Fixpoint freed (k : bool) (ty : fc_type) (rel : nat -> bool) (n : nat) (l : list tlp) : Z :=
  match l with
  | [] => 0
  | t :: r => (if rel n then credits k ty t else 0) + freed k ty rel (S n) r
  end.

(** What side [s] has used of the buffer of its peer. *)
Definition in_use (k : bool) (ty : fc_type) (s : bool) (l : list entry) : Z :=
  sum_credits k ty (gated s l) - freed k ty (released (negb s) l) 0 (received (negb s) l).

(** Two connected ports with the given initial credits, after some events. *)
Definition reach (ia ib : per3 (Z * Z)) (st : sys) : Prop :=
  exists da db steps s0 es, link_new ia ib da db steps = Ok s0 /\ run es s0 = Ok st.
(** What the port of side [s] advertises; zero or less means no limit. *)
Definition advertised (ia ib : per3 (Z * Z)) (k : bool) (ty : fc_type) (s : bool) : Z :=
  let '(h, d) := get3 ty (if s then ia else ib) in Z.max 0 (if k then d else h).

(** Packets of side [s] on their way, in the order in which they were sent. *)
Definition on_wire (st : sys) (s : bool) : list packet :=
  map snd (s_flight st s) ++ match p_busy (s_port st s) with Some (_, k) => [k] | None => [] end.
Definition tlps (l : list packet) : list tlp := flat_map (fun k => match k with PTlp t => [t] | _ => [] end) l.

(** The number of TLPs of side [s] that its peer has acknowledged as far as [s] knows: an ACK covers
    what the peer had received when it was sent, and ACKs arrive in order.  State: TLPs received by
    the peer, what the ACKs on the way cover, what the last ACK that arrived covers. *)
Definition ack_step (s : bool) (x : nat * list nat * nat) (e : entry) : nat * list nat * nat :=
  let '(rx, sent, acked) := x in
  match e with
  | LRx y _ => if Bool.eqb y s then x else (S rx, sent, acked)
  | LDllpTx y d => if negb (Bool.eqb y s) && (d_type d =? D_ACK) then (rx, sent ++ [rx], acked) else x
  | LDllpRx y d =>
    if Bool.eqb y s && (d_type d =? D_ACK) then
      match sent with [] => x | a :: q => (rx, q, a) end
    else x
  | _ => x
  end.
Definition ack_state (s : bool) (l : list entry) : nat * list nat * nat := fold_left (ack_step s) l (O, [], O).
Definition acknowledged (s : bool) (l : list entry) : nat := snd (ack_state s l).

(** The DLLPs sent and received by [s]. *)
Definition dllps_sent (s : bool) (l : list entry) : list dllp :=
  flat_map (fun e => match e with LDllpTx x d => if Bool.eqb x s then [d] else [] | _ => [] end) l.
Definition dllps_received (s : bool) (l : list entry) : list dllp :=
  flat_map (fun e => match e with LDllpRx x d => if Bool.eqb x s then [d] else [] | _ => [] end) l.
Definition dllps (l : list packet) : list dllp := flat_map (fun k => match k with PDllp d => [d] | _ => [] end) l.
(** Credit updates of a class. *)
Definition is_update (ty : fc_type) (d : dllp) : bool :=
  d_type d =? match ty with FC_P => D_UPDATE_FC_P | FC_NP => D_UPDATE_FC_NP | FC_CPL => D_UPDATE_FC_CPL end.
Definition updates (ty : fc_type) (l : list dllp) : nat := length (filter (is_update ty) l).
