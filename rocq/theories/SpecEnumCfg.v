(** When the registers of a tree of functions are what ModelEnum.v takes them for, and when two trees of devices that the host has found are the same for it. *)
From Verif Require Import Base ModelUtils ModelAttrs ModelCaps ModelCapList ModelConfig ModelEnum ModelPciCaps ModelDriver ModelTree ModelTreeCfg SpecBar SpecCapList SpecCapFn SpecPciCaps SpecRoute SpecTree SpecScan.

(** ** A function *)
(** The capabilities: any history of registrations and configuration writes after which the lists are right (C25, C51).  The number of the function does not matter. *)
Definition sound (fuel : nat) (br : bool) (g : fnc) : Prop :=
  exists f0 ops f1, fresh f0 /\ typed f0 ops /\ frun (cfg_wr br) ops f0 = Ok f1 /\ orderly (cfg_wr br) f0 ops f1 /\ g = with_id (f_id g) f1 /\
    (length (f_caps f1) < fuel)%nat /\ (length (f_ecaps f1) < fuel)%nat.
(** The PCI Express capability: an object of that class, within the space for it; [e]: the device/port type and Max_Payload_Size Supported, in its first two registers; [v]: Max_Payload_Size, in
    the third *)
Definition shows_exp (br : bool) (g : fnc) (e : option (Z * Z)) (v : Z) : Prop :=
  match e with
  | None => get_capability_offset EXP (listing g) = None
  | Some (ty, mpss) =>
    exists i v0 v1 v2, In i (f_caps g) /\ c_kind (f_heap g i) = KPcie /\ 9 <= c_len (f_heap g i) /\ off (f_heap g i) + c_len (f_heap g i) <= 64 /\
      get_capability_offset EXP (listing g) = Some (4 * off (f_heap g i)) /\
      cfg_rd br g (off (f_heap g i)) = Ok (Some v0) /\ v0 / 2 ^ 20 mod 2 ^ 4 = ty /\
      cfg_rd br g (off (f_heap g i) + 1) = Ok (Some v1) /\ v1 mod 2 ^ 3 = mpss /\
      cfg_rd br g (off (f_heap g i) + 2) = Ok (Some v2) /\ v2 / 2 ^ 5 mod 2 ^ 3 = v
  end.
(** The BARs (C20) and the ROM are [bs] and [rom] for the host (C22): kinds and sizes. *)
Definition shows_bars (br : bool) (g : fnc) (bs : list (Z * Z)) : Prop := exists lay, laid_out (f_attr g) 0 lay /\ total_slots lay = net_bars br /\ seen lay bs.
Definition shows_rom (g : fnc) (size : Z) : Prop := exists a base, rom_at (f_attr g) a base /\ base mod 2 ^ a = 0 /\ size = if a =? 32 then 0 else 2 ^ a.
(** All that ModelEnum.v has of a function *)
Record told (fuel : nat) (x : hfn) (g : fnc) (br : bool) : Prop := mkTold {
  t_looks : looks x g br; t_type : h_type x = Z.b2z br; t_bars : shows_bars br g (h_bars x); t_rom : shows_rom g (snd (h_rom x));
  t_sound : sound fuel br g; t_exp : shows_exp br g (h_exp x) (h_mps x) }.

(** ** The tree *)
Inductive tells (fuel : nat) : hw -> net -> Prop := Tells x l g br l' : told fuel x g br -> Forall2 (tells fuel) l l' -> tells fuel (Hw x l) (Net g br l').
Definition system (fuel : nat) (h : hw) (z : net) : Prop := at_host z /\ h_sec (hw_fn h) = 0 /\ exists f l, z = Net f true l /\ Forall2 (tells fuel) (hw_below h) l.

(** ** What the host has found *)
Definition alike (p p' : pfn) : Prop :=
  p_id p = p_id p' /\ p_type p = p_type p' /\ p_multi p = p_multi p' /\ p_exp p = p_exp p' /\ snd (p_rom p) = snd (p_rom p') /\
  exists lay, total_slots lay = (if p_type p =? 1 then 2 else 6) /\ seen lay (p_bars p) /\ seen lay (p_bars p').
Inductive same_bus : pbus -> pbus -> Prop :=
| Same n p l ds ds' : same_devs ds ds' -> same_bus (PBus n p l ds) (PBus n p l ds')
with same_devs : list (pfn * option pbus) -> list (pfn * option pbus) -> Prop :=
| SameNil : same_devs [] []
| SameFn p p' ds ds' : alike p p' -> same_devs ds ds' -> same_devs ((p, None) :: ds) ((p', None) :: ds')
| SameBr p p' b b' ds ds' : alike p p' -> same_bus b b' -> same_devs ds ds' -> same_devs ((p, Some b) :: ds) ((p', Some b') :: ds').
