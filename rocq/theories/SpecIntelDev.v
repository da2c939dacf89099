(** Specification of the Intel device models. *)
From Verif Require Import Base ModelUtils ModelTlp ModelAttrs ModelConfig ModelFunction ModelRoute ModelFrames ModelIntel ModelIntelDev SpecTlp SpecBar SpecRoute SpecUsRoute SpecIntel.

(** The frame [g] is that of [t], for BAR [b] and function [fn]: it converts back to what the type of [t] carries, its parity is right, and every
    interface whose function signals have room for [fn] can carry it. *)
Definition framed (v : ModelIntel.dev) (t : tlp) (b fn : Z) (g : pt_frame) : Prop :=
  t_bar g = b /\ t_func g = fn /\ t_vf g = None /\ t_parity g = data_parity (t_data g) /\ (v = PTile -> pt_check_parity g = Ok true) /\
  (exists ty k, sendable ty k t /\ tlp_of_frame v g = Ok (on_wire ty k t) /\ forall c, dv c = v -> tlp_of_frame v (carried_iframe c g) = Ok (on_wire ty k t)) /\
  forall c, dv c = v -> 0 <= b < 8 -> 0 <= fn < match v with PTile => 8 | HTile => if ig c =? 1 then 4 else if ig c =? 2 then 2 else 1 end -> good_iframe c g.

(** ** Projections of the events *)
(** What was put into the receive queue. *)
Definition entered (l : list ievent) : list (tlp * pt_frame) :=
  flat_map (fun e => match e with JIn t (XCpl g) true | JIn t (XReq g) _ => [(t, g)] | _ => [] end) l.
Definition streamed (l : list ievent) : list pt_frame := flat_map (fun e => match e with JOut g => [g] | _ => [] end) l.
Definition sent_up (l : list ievent) : list (pt_frame * tlp) := flat_map (fun e => match e with JTx f t => [(f, t)] | _ => [] end) l.
Definition tx_frames (l : list ilabel) : list pt_frame := flat_map (fun x => match x with ITx f => [f] | _ => [] end) l.
Definition received (l : list ilabel) : list tlp := flat_map (fun x => match x with IRecv t => [t] | _ => [] end) l.
Definition arrived_tlps (l : list ievent) : list tlp := flat_map (fun e => match e with JIn t _ _ => [t] | _ => [] end) l.

(** What the device holds: the item being sent, then the queue. *)
Definition sending (s : idev) : list (tlp * pt_frame) := match y_busy s with Some x => [x] | None => [] end.
Definition held (s : idev) : list (tlp * pt_frame) := sending s ++ y_q s.
Definition completion (t : tlp) : bool :=
  match fmt_type t with Ok CPL | Ok CPL_DATA | Ok CPL_LOCKED | Ok CPL_LOCKED_DATA => true | _ => false end.
Definition completions (l : list (tlp * pt_frame)) : list tlp := filter completion (map fst l).
Definition requests (l : list (tlp * pt_frame)) : list tlp := filter (fun t => negb (completion t)) (map fst l).
(** Flow control units of 16 bytes, PCI Express Base Specification section 2.6.1. *)
Definition data_units (l : list tlp) : Z := fold_right (fun t n => (zlen (data t) + 15) / 16 + n) 0 l.
(** The completions held, headers and data, are within the buffer. *)
Definition within (o : iopt) (l : list tlp) : Prop := zlen l <= io_cplh o /\ data_units l <= io_cpld o.
Definition usual_limits (o : iopt) : Prop := 0 <= io_cplh o /\ 0 <= io_cpld o.
