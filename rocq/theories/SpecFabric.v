(** Who can reach whom across a tree. *)
From Verif Require Import Base ModelUtils ModelCapList ModelConfig ModelEnum ModelAssign SpecAssign SpecTree ModelTree SpecTreeUp.

(** [s] is the host, or a function from which there is a way to the function at [q]. *)
Definition sender (z : net) (s : pcie_id) (q : list nat) : Prop :=
  s = id0 \/ exists p u, p <> [] /\ net_at z p = Some u /\ f_id (net_fn u) = s /\ way true p q = true.
(** BAR [j] of the endpoint [g] at [q] is the one of the allocation [a], which is for function [e], and addresses in it are taken for nothing else. *)
Record bar_at (z : net) (n : list adev) (io : bool) (e : pfn) (a : alloc) (q : list nat) (g : fnc) (j : Z) : Prop := {
  ba_alloc : In (e, a) (flat_map bar_allocs n);
  ba_io : io_kind (a_kind a) = io;
  ba_dec : forall x, a_addr a <= x < a_addr a + a_size a -> forall e' a', In (e', a') (flat_map bar_allocs n) -> decodes io x a';
  ba_at : exists kids, net_at z q = Some (Net g false kids);
  ba_id : f_id g = p_id e;
  ba_reg : a_reg a = 0x10 + 4 * j }.
(** The addresses from [lo] to below [hi] are not behind the host bridge. *)
Definition host_side (l l' : lims) (io : bool) (lo hi : Z) : Prop :=
  0 <= lo /\ hi <= 2 ^ 64 /\ forall x k, lo <= x < hi -> io_kind k = io -> ~ lim k l <= x <= lim k l'.
