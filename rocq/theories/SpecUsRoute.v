(** Specification of the routing of received TLPs in the UltraScale device models. *)
From Verif Require Import Base ModelUtils ModelTlp ModelAttrs ModelConfig ModelRoute SpecBar SpecRoute.

(** No window of the layouts [ls] contains address [a]. *)
Definition unclaimed (io : bool) (a : Z) (ls : list (list entry)) : Prop :=
  Forall (fun l => Forall (fun w => hits a io w = false) (windows 0 l)) ls.
(** A completion without data, with a status, as answer to [t] (PCIe 2.2.9). *)
Definition is_answer (st : Z) (c t : tlp) (cid : pcie_id) : Prop :=
  fmt_type c = Ok CPL /\ status c = st /\ requester_id c = requester_id t /\ tag c = tag t /\ completer_id c = cid /\
  tc c = tc t /\ ModelTlp.attr c = ModelTlp.attr t /\ data c = [] /\ tlen c = 0 /\ ep c = false.
(** The function that a configuration request of type 0 is for. *)
Definition addressed_fn (t : tlp) (p : fnc * Z) : bool := (device (f_id (fst p)) =? device (completer_id t)) && (func (f_id (fst p)) =? func (completer_id t)).
