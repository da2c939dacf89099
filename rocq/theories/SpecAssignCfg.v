(** An enumerated tree before addresses are assigned, and when two assignments are the same. *)
From Verif Require Import Base ModelUtils ModelEnum ModelAssign ModelTree SpecEnum SpecRoute SpecAssign SpecTree SpecEnumCfg.

(** The allocations of two functions: the same registers, addresses and sizes of all BARs and of the ROM, the same windows of the bridges.  What the host has read from the registers before may be
    different. *)
Inductive same_adev : adev -> adev -> Prop :=
| SameOwn p p' own own' : alike p p' -> map spot own = map spot own' -> same_adev (ADev p own None) (ADev p' own' None)
| SameBridge p p' own own' r k k' : alike p p' -> map spot own = map spot own' -> Forall2 same_adev k k' -> same_adev (ADev p own (Some (r, k))) (ADev p' own' (Some (r, k'))).

(** The tree [z] behind the host bridge when enumeration has ended with [h]: all functions know their numbers and all bridges their buses, the kinds and sizes of the BARs are those of [h]. *)
Definition enumerated_net (h : hw) (z : net) : Prop :=
  exists f zs, z = Net f true zs /\ host_like f /\ Forall2 shown (hw_below h) zs /\ Forall2 (numbered 0) (hw_below h) zs.
(** The host is to assign addresses from [l] on: enumeration of [h] ended with [h'] and the buses [b], [b'] are these as they were read from the registers; [n] and [l']: the assignment by ModelAssign.v. *)
Definition to_assign (m : Z) (h h' : hw) (b b' : pbus) (z : net) (l : lims) (n : list adev) (l' : lims) : Prop :=
  good_system m h /\ scan_root m h = Ok (h', b) /\ enumerated_net h' z /\ same_bus b' b /\ assign_bus b l = Ok (n, l') /\ forall k, 0 < lim k l /\ lim k l' < top k.
