(** Trees with the same numbers. *)
From Verif Require Import Base ModelUtils ModelCapList ModelConfig ModelTree SpecRoute SpecConfig SpecHost SpecRegs.

(** Both have the same functions, as far as numbers are concerned: those of the functions, and those of the buses behind the bridges. *)
Fixpoint same_numbers (z z' : net) : Prop :=
  match z, z' with
  | Net f br l, Net f' br' l' =>
    f_id f' = f_id f /\ br' = br /\ (br = true -> bus_range f' = bus_range f) /\
    (fix go (l l' : list net) : Prop := match l, l' with [], [] => True | z :: l, z' :: l' => same_numbers z z' /\ go l l' | _, _ => False end) l l'
  end.
Definition net_br (z : net) : bool := match z with Net _ br _ => br end.
(** The masks of the two classes *)
Definition masks_of (br : bool) : fnc -> Z -> option (Z * Z * Z) :=
  if br then cfg_masks br_rw br_w1c (tab [(3, 0x40000000)]) else cfg_masks ep_rw ep_w1c (tab [(3, 0x40000000)]).
(** Not the bus numbers of a bridge (core/bridge.py:207-216) *)
Definition spared (br : bool) (addr len : Z) : Prop := br = true -> addr + len <= 24 \/ 28 <= addr.
