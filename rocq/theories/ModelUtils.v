(** core/utils.py *)
From Verif Require Import Base.

(** core/utils.py:28-32 [align(val, mask)] *)
Definition align (val mask : Z) : Z :=
  if zbool (Z.land val mask) then val + mask + 1 - Z.land val mask else val.

(** core/utils.py:39-43, the [while mask >= m1] loop.  [fuel] bounds the number of iterations;
    [bmu_loop_fuel] in ProofsUtils.v shows that the bound given below is never reached. *)
Fixpoint bmu_loop (fuel : nat) (mask m1 m2 old new : Z) : Z :=
  match fuel with
  | O => old
  | S f =>
    if m1 <=? mask then
      bmu_loop f mask (Z.shiftl m1 1) (Z.shiftl m2 8)
        (if zbool (Z.land mask m1) then Z.lor (Z.land old (Z.lnot m2)) (Z.land new m2) else old) new
    else old
  end.

(** core/utils.py:35-44 [byte_mask_update(old, mask, new, bitmask)]; the default of [bitmask] is -1. *)
Definition byte_mask_update (old mask new bitmask : Z) : Z :=
  bmu_loop (S (S (Z.to_nat (Z.log2 mask)))) mask 1 255 old
    (Z.lor (Z.land new bitmask) (Z.land old (Z.lnot bitmask))).

(** core/utils.py:47-59 [PcieId]: the named tuple and its checked constructor. *)
Record pcie_id := mkId { bus : Z; device : Z; func : Z }.
Definition pcie_id_new (b d f : Z) : res pcie_id :=
  if (b <? 0) || (b >? 255) then Err ValueError
  else if (d <? 0) || (d >? 31) then Err ValueError
  else if (f <? 0) || (f >? 7) then Err ValueError
  else Ok (mkId b d f).

(** core/utils.py:61-63 [PcieId.from_int]; the components are masked, so the checks of the
    constructor cannot fail ([from_int_checked] in ProofsUtils.v). *)
Definition id_from_int (v : Z) : pcie_id :=
  mkId (Z.land (Z.shiftr v 8) 255) (Z.land (Z.shiftr v 3) 31) (Z.land v 7).
Definition pcie_id_from_int (v : Z) : res pcie_id :=
  pcie_id_new (Z.land (Z.shiftr v 8) 255) (Z.land (Z.shiftr v 3) 31) (Z.land v 7).

(** core/utils.py:68-69 [int(PcieId)] *)
Definition id_int (i : pcie_id) : Z :=
  Z.lor (Z.lor (Z.shiftl (Z.land (bus i) 255) 8) (Z.shiftl (Z.land (device i) 31) 3)) (Z.land (func i) 7).

(** Tuple equality. *)
Definition id_eqb (a b : pcie_id) : bool :=
  (bus a =? bus b) && (device a =? device b) && (func a =? func b).
Definition id0 : pcie_id := mkId 0 0 0.
