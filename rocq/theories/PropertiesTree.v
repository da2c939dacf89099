(** C59: after enumeration and assignment, what the host sends reaches the function that it is for. *)
From Verif Require Import Base ModelUtils ModelTlp ModelAttrs ModelCapList ModelConfig ModelFunction ModelRoute ModelEnum ModelAssign SpecBar SpecRoute SpecEnum SpecAssign
  ModelTree SpecTree ProofsTreeAll.
Require Import Sorting.Sorted.

(** Every function has the number that the host has for it, and no two have the same. *)
Theorem C59_numbers : forall m h z l h' b n l', brought_up m h z l h' b n l' ->
  map (fun e => f_id (fst e)) (below (set_up h' n l l' z)) = map number (below_functions h') /\ NoDup (map (fun e => f_id (fst e)) (below (set_up h' n l l' z))).
Proof. intros m h z l h' b n l' U. exact (up_numbers m h _ l h' b n l' (up_arranged _ _ _ _ _ _ _ _ U)). Qed.
(** A configuration request (of type 1) or a completion reaches the function with the number in it, a configuration request as one of type 0; with a number that no function
    has, it reaches nobody. *)
Theorem C59_ids : forall m h z l h' b n l', brought_up m h z l h' b n l' ->
  forall t ty dst, tlp_check t = Ok true -> fmt_type t = Ok ty -> route_of ty t = TBus dst \/ route_of ty t = TBack dst -> dst <> mkId 0 0 0 -> 0 <= bus dst < 256 ->
  (In dst (map number (below_functions h')) -> exists g t', reach (set_up h' n l l' z) t = Ok (Some (g, t')) /\ f_id g = dst /\ In g (map fst (below (set_up h' n l l' z))) /\ arrived t t') /\
  (~ In dst (map number (below_functions h')) -> reach (set_up h' n l l' z) t = Ok None).
Proof. intros m h z l h' b n l' U. exact (up_ids m h _ l h' b n l' (up_arranged _ _ _ _ _ _ _ _ U)). Qed.
(** A memory or I/O request reaches the function that was assigned the address, which finds it in the BAR it was assigned for; an address in no BAR reaches nobody.  Missing: BARs of 4 GiB and
    more, and addresses above 4 GiB in a tree with BARs of 32 bits (both refuted below). *)
Theorem C59_address_partial : forall m h z l h' b n l', brought_up m h z l h' b n l' ->
  forall t ty io x, tlp_check t = Ok true -> fmt_type t = Ok ty -> route_of ty t = TAddr io x -> 0 <= x < 2 ^ 64 ->
  (forall k, (granule k | lim k l)) -> apart l l' -> (forall p a, In (p, a) (flat_map bar_allocs n) -> decodes io x a) ->
  (forall p a, In (p, a) (flat_map bar_allocs n) -> holds io x a ->
    exists g nb j, reach (set_up h' n l l' z) t = Ok (Some (g, t)) /\ In (g, nb) (below (set_up h' n l l' z)) /\ f_id g = p_id p /\
      match_bar nb x io (f_attr g) = Ok (Some (j, x - a_addr a)) /\ a_reg a = 0x10 + 4 * j) /\
  ((forall p a, In (p, a) (flat_map bar_allocs n) -> ~ holds io x a) -> reach (set_up h' n l l' z) t = Ok None).
Proof. intros m h z l h' b n l' U. exact (up_address m h _ l h' b n l' (up_arranged _ _ _ _ _ _ _ _ U)). Qed.

(** ** Example: a root port, a switch and an endpoint with two functions, whose BARs are [b0] and [b1] and which have the ROMs [r0] and [r1] *)
Definition ex_fn (d f ty : Z) (multi : bool) (e : Z) (bs : list (Z * Z)) (rom : Z) : hfn := mkHf d f 0x12345678 ty multi (Some (e, 1)) 0 0 0 0 bs (0, rom).
Definition ex_hw (b0 b1 : list (Z * Z)) (r0 : Z) : hw :=
  Hw (mkHf 0 0 0x12345678 1 false None 0 0 0 255 [(0, 0); (0, 0)] (0, 0))
    [Hw (ex_fn 1 0 1 false 4 [(0, 0); (0, 0)] 0) [Hw (ex_fn 0 0 1 false 5 [(0, 0); (0, 0)] 0) [Hw (ex_fn 1 0 1 false 6 [(0, 0); (0, 0)] 0)
      [Hw (ex_fn 0 0 0 true 0 b0 r0) []; Hw (ex_fn 0 1 0 true 0 b1 0) []]]]].
Definition ex_attrs (l : list (attr * Z)) : attrs := fold_right (fun '(a, v) s => aset a v s) (fun _ => 0) l.
Definition ex_f (d f : Z) (l : list (attr * Z)) : fnc := mkFn (ex_attrs l) (fun _ => pm_cap_new) [] [] (mkId 0 d f).
Definition ex_br (d : Z) : fnc := ex_f d 0 [(fn_io_limit, 0xfff); (fn_mem_limit, 0xfffff); (fn_prefetchable_mem_limit, 0xfffff)].
Definition ex_net (a0 a1 : list (attr * Z)) : net :=
  Net (ex_f 0 0 [(fn_sub_bus_num, 255)]) true [Net (ex_br 1) true [Net (ex_br 0) true [Net (ex_br 1) true [Net (ex_f 0 0 a0) false []; Net (ex_f 0 1 a1) false []]]]].
(** core/rc.py:76-81: the addresses that the host hands out unless told otherwise *)
Definition ex_l : lims := mkL 0x80000000 0xc0000000 0x8000000000000000.
Lemma ex_good b0 b1 r0 : good_system 0 (ex_hw b0 b1 r0).
Proof.
  assert (G : forall d f ty mu e b r, 0 <= d < 32 -> 0 <= f < 8 -> ty = 0 \/ ty = 1 -> good_fn (ex_fn d f ty mu e b r)).
  { intros. unfold good_fn. cbn. repeat split; try lia. }
  assert (N : forall d f ty mu e b r, e <> 4 -> ~ port_type (ex_fn d f ty mu e b r) 4) by (intros d f ty mu e b r N (k' & E); injection E; auto).
  unfold good_system, ex_hw. cbn [hw_fn hw_below h_type h_exp h_sec h_sub h_mps].
  repeat (split; [first [reflexivity|lia]|]). split.
  - cbn [hw_all]. unfold good_node, good_bus. cbn [hw_fn hw_below].
    repeat match goal with
      | |- _ /\ _ => split
      | |- True => exact Logic.I
      | |- StronglySorted _ _ => constructor
      | |- Forall _ [] => constructor
      | |- Forall _ (_ :: _) => apply Forall_cons
      | |- good_fn _ => apply G; lia
      | |- key _ < key _ => reflexivity
      | |- h_type _ = 0 -> _ => intros; first [reflexivity|discriminate]
      | |- _ -> _ => intro
      | |- forall _, _ => intro
      | H : In _ _ |- _ => cbn [In] in H
      | H : False |- _ => destruct H
      | H : _ \/ _ |- _ => destruct H
      | H : Hw _ _ = _ |- _ => subst
      end;
    try reflexivity; try (cbn in *; congruence); try (cbn in *; lia);
    try (match goal with H : port_type _ _ |- _ => destruct H as (? & H); cbn in H; discriminate end);
    try (eexists; split; [left; reflexivity|split; reflexivity]);
    try (eexists; split; [right; left; reflexivity|split; reflexivity]).
  - apply Forall_cons; [|constructor]. split; [cbn; lia|split].
    + intros k E. injection E as <-. lia.
    + cbn. repeat match goal with |- _ /\ _ => split | |- True => exact Logic.I | |- Forall _ _ => constructor | |- ~ port_type _ _ => apply N; lia end.
Qed.
Lemma ex_up b0 b1 r0 a0 a1 lay0 lay1 h' b n l' :
  laid_out (ex_attrs a0) 0 lay0 -> total_slots lay0 = 6 -> seen lay0 b0 -> laid_out (ex_attrs a1) 0 lay1 -> total_slots lay1 = 6 -> seen lay1 b1 -> SpecAssign.size_ok 11 r0 ->
  scan_root 0 (ex_hw b0 b1 r0) = Ok (h', b) -> assign_bus b ex_l = Ok (n, l') -> (forall k, lim k l' < top k) ->
  brought_up 0 (ex_hw b0 b1 r0) (ex_net a0 a1) ex_l h' b n l'.
Proof.
  intros L0 T0 S0 L1 T1 S1 Ro Sc As Li. split; [apply ex_good|]. split; [exact Sc|]. split; [exact As|]. split; [intros k; split; [destruct k; reflexivity|apply Li]|].
  eexists. eexists. split; [reflexivity|]. split; [split; [reflexivity|]; split; [cbn; auto|reflexivity]|].
  assert (Br : forall d, whole (ex_br d)) by (intros d k; exists 0, 0; destruct k; vm_compute; repeat split; discriminate).
  assert (N : forall d, exists lay, laid_out (f_attr (ex_br d)) 0 lay /\ total_slots lay = 2 /\ seen lay [(0, 0); (0, 0)]) by (intros d; exists [None; None]; cbn; repeat split).
  cbn [hw_below ex_hw]. constructor; [|constructor]. cbn [shown ex_net].
  repeat match goal with
    | |- exists lay, laid_out (f_attr (ex_br _)) 0 lay /\ _ => apply N
    | |- true = true -> _ => intros _; apply Br
    | |- false = true -> _ => discriminate
    | |- exists lay, laid_out _ 0 lay /\ total_slots lay = _ /\ seen lay _ => first [exists lay0; split; [exact L0|]; split; [exact T0|exact S0] | exists lay1; split; [exact L1|]; split; [exact T1|exact S1]]
    | |- _ /\ _ => split
    | |- True => exact Logic.I
    | |- SpecAssign.size_ok _ _ => first [exact Ro | left; reflexivity]
    | |- 0 <= _ => cbn; lia
    | |- _ = _ => reflexivity
    end.
Qed.

(** Function 0: a BAR of 4 KiB, a ROM and 256 bytes of I/O space; function 1: 1 MiB prefetchable with 64 bits *)
Definition ex_b0 : list (Z * Z) := [(0, 0x1000); (1, 0x100); (0, 0); (0, 0); (0, 0); (0, 0)].
Definition ex_b1 : list (Z * Z) := [(0x0000000c0000000c, 0x100000); (0, 0); (0, 0); (0, 0); (0, 0); (0, 0)].
Definition ex_a0 : list (attr * Z) := [(fn_bar_mask 0, 0xfffff000); (fn_bar 1, 1); (fn_bar_mask 1, 0xffffff00)].
Definition ex_a1 : list (attr * Z) := [(fn_bar 0, 0xc); (fn_bar_mask 0, 0xfff00000); (fn_bar_mask 1, 0xffffffff)].
Definition mem_ex (a : Z) : tlp := set_tlen 1 (set_address a (set_fmt_type MEM_READ_64 tlp0)).
Definition io_ex (a : Z) : tlp := set_tlen 1 (set_address a (set_fmt_type IO_READ tlp0)).
Definition cfg_ex (i : pcie_id) : tlp := set_tlen 1 (set_completer_id i (set_fmt_type CFG_READ_1 tlp0)).
Definition cpl_ex (i : pcie_id) : tlp := set_requester_id i (set_fmt_type CPL tlp0).
(** Which function gets it, and the type then *)
Definition who (r : res (option (fnc * tlp))) : res (option (pcie_id * res tlp_type)) := match r with Ok (Some (g, t)) => Ok (Some (f_id g, fmt_type t)) | Ok None => Ok None | Err e => Err e end.
Ltac bars := repeat match goal with x := _ : list (Z * Z) |- _ => subst x end; try unfold ex_b0; try unfold ex_b1; cbn [laid_out seen]; unfold bar_at, SpecBar.size_ok, base_ok, content, size_mask, bwidth; cbn [is_wide is_io type_bits slots];
  repeat match goal with |- _ /\ _ => split | |- True => exact Logic.I | |- _ = _ => reflexivity | |- _ <= _ => vm_compute; discriminate | |- _ < _ => reflexivity end.
Example C59_ex : exists h' b n l', brought_up 0 (ex_hw ex_b0 ex_b1 0x800) (ex_net ex_a0 ex_a1) ex_l h' b n l' /\ apart ex_l l' /\ (forall k, (granule k | lim k ex_l)) /\
  let z := set_up h' n ex_l l' (ex_net ex_a0 ex_a1) in
  map (fun e => f_id (fst e)) (below z) = [mkId 0 1 0; mkId 1 0 0; mkId 2 1 0; mkId 3 0 0; mkId 3 0 1] /\
  map (fun e => (p_id (fst e), a_addr (snd e))) (flat_map bar_allocs n) = [(mkId 3 0 0, 0xc0000000); (mkId 3 0 0, 0x80000000); (mkId 3 0 1, 0x8000000000000000)] /\
  who (reach z (mem_ex 0xc0000ffc)) = Ok (Some (mkId 3 0 0, Ok MEM_READ_64)) /\ who (reach z (mem_ex 0x8000000000012340)) = Ok (Some (mkId 3 0 1, Ok MEM_READ_64)) /\
  who (reach z (io_ex 0x80000010)) = Ok (Some (mkId 3 0 0, Ok IO_READ)) /\ who (reach z (io_ex 0x80000100)) = Ok None /\ who (reach z (mem_ex 0xc0001000)) = Ok None /\
  who (reach z (cfg_ex (mkId 2 1 0))) = Ok (Some (mkId 2 1 0, Ok CFG_READ_0)) /\ who (reach z (cfg_ex (mkId 3 0 1))) = Ok (Some (mkId 3 0 1, Ok CFG_READ_0)) /\
  who (reach z (cfg_ex (mkId 3 1 0))) = Ok None /\ who (reach z (cpl_ex (mkId 3 0 1))) = Ok (Some (mkId 3 0 1, Ok CPL)) /\ who (reach z (cpl_ex (mkId 4 0 0))) = Ok None.
Proof.
  do 4 eexists. split; [|split; [|split; [intros []; [exists 0x80000|exists 0xc00|exists 0x80000000000]; reflexivity|]]].
  - eapply (ex_up _ _ _ _ _ [Some (BMem false false, 12, 0); Some (BIo, 8, 0); None; None; None; None] [Some (BMem true true, 20, 0); None; None; None; None]);
      [bars|reflexivity|bars|bars|reflexivity|bars|right; exists 11; split; [lia|reflexivity]|vm_compute; reflexivity|vm_compute; reflexivity|intros []; reflexivity].
  - left. reflexivity.
  - vm_compute. repeat split.
Qed.

(** ** Refuted: an address above 4 GiB, assigned to function 1, reaches function 0, which has a BAR of 32 bits that holds the lower half of the address. *)
Theorem C59_high_refuted : exists h z l h' b n l' p a t g t', brought_up 0 h z l h' b n l' /\ apart l l' /\ (forall k, (granule k | lim k l)) /\
  tlp_check t = Ok true /\ fmt_type t = Ok MEM_READ_64 /\ In (p, a) (flat_map bar_allocs n) /\ holds false (address t) a /\ (forall p a, In (p, a) (flat_map bar_allocs n) -> a_size a < 2 ^ 32) /\
  reach (set_up h' n l l' z) t = Ok (Some (g, t')) /\ f_id g <> p_id p.
Proof.
  set (b0 := [(0, 0x1000); (0, 0); (0, 0); (0, 0); (0, 0); (0, 0)]). set (b1 := [(0x0000000c0000000c, 0x80000000); (0, 0); (0x0000000c0000000c, 0x80000000); (0, 0); (0, 0); (0, 0)]).
  set (a0 := [(fn_bar_mask 0, 0xfffff000)]). set (a1 := [(fn_bar 0, 0xc); (fn_bar_mask 0, 0x80000000); (fn_bar_mask 1, 0xffffffff); (fn_bar 2, 0xc); (fn_bar_mask 2, 0x80000000); (fn_bar_mask 3, 0xffffffff)]).
  exists (ex_hw b0 b1 0), (ex_net a0 a1), ex_l. do 6 eexists. exists (mem_ex 0x80000000c0000010). do 2 eexists. split; [|split; [|split; [intros []; [exists 0x80000|exists 0xc00|exists 0x80000000000]; reflexivity|]]].
  - eapply (ex_up _ _ _ _ _ [Some (BMem false false, 12, 0); None; None; None; None; None] [Some (BMem true true, 31, 0); Some (BMem true true, 31, 0); None; None]);
      [bars|reflexivity|bars|bars|reflexivity|bars|left; reflexivity|vm_compute; reflexivity|vm_compute; reflexivity|intros []; reflexivity].
  - left. reflexivity.
  - split; [reflexivity|]. split; [reflexivity|]. split; [cbn; right; right; left; reflexivity|]. split; [split; [reflexivity|split; [vm_compute; discriminate|reflexivity]]|].
    split; [intros p a I; cbn in I; destruct I as [I|[I|[I|[]]]]; injection I as <- <-; reflexivity|]. split; [vm_compute; reflexivity|vm_compute; discriminate].
Qed.
(** Refuted: a BAR of 4 GiB is assigned an address that reaches nobody. *)
Theorem C59_large_refuted : exists h z l h' b n l' p a t, brought_up 0 h z l h' b n l' /\ apart l l' /\ (forall k, (granule k | lim k l)) /\
  tlp_check t = Ok true /\ fmt_type t = Ok MEM_READ_64 /\ In (p, a) (flat_map bar_allocs n) /\ holds false (address t) a /\
  reach (set_up h' n l l' z) t = Ok None.
Proof.
  set (b0 := [(0, 0); (0, 0); (0, 0); (0, 0); (0, 0); (0, 0)]). set (b1 := [(0x0000000c0000000c, 0x100000000); (0, 0); (0, 0); (0, 0); (0, 0); (0, 0)]).
  set (a0 := @nil (attr * Z)). set (a1 := [(fn_bar 0, 0xc); (fn_bar_mask 0, 0); (fn_bar_mask 1, 0xffffffff)]).
  exists (ex_hw b0 b1 0), (ex_net a0 a1), ex_l. do 6 eexists. exists (mem_ex 0x8000000000000010). split; [|split; [|split; [intros []; [exists 0x80000|exists 0xc00|exists 0x80000000000]; reflexivity|]]].
  - eapply (ex_up _ _ _ _ _ [None; None; None; None; None; None] [Some (BMem true true, 32, 0); None; None; None; None]);
      [bars|reflexivity|bars|bars|reflexivity|bars|left; reflexivity|vm_compute; reflexivity|vm_compute; reflexivity|intros []; reflexivity].
  - left. reflexivity.
  - split; [reflexivity|]. split; [reflexivity|]. split; [cbn; left; reflexivity|]. split; [split; [reflexivity|split; [vm_compute; discriminate|reflexivity]]|]. vm_compute; reflexivity.
Qed.
(** Refuted: the address of an expansion ROM, which the host has assigned and enabled, reaches nobody. *)
Theorem C59_rom_refuted : exists h z l h' b n l' a t, brought_up 0 h z l h' b n l' /\ In a (flat_map allocs n) /\ a_reg a = 0x30 /\
  tlp_check t = Ok true /\ fmt_type t = Ok MEM_READ_64 /\ holds false (address t) a /\ reach (set_up h' n l l' z) t = Ok None.
Proof.
  exists (ex_hw ex_b0 ex_b1 0x800), (ex_net ex_a0 ex_a1), ex_l. do 5 eexists. exists (mem_ex 0xc0001010). split; [|split; [|]].
  - eapply (ex_up _ _ _ _ _ [Some (BMem false false, 12, 0); Some (BIo, 8, 0); None; None; None; None] [Some (BMem true true, 20, 0); None; None; None; None]);
      [bars|reflexivity|bars|bars|reflexivity|bars|right; exists 11; split; [lia|reflexivity]|vm_compute; reflexivity|vm_compute; reflexivity|intros []; reflexivity].
  - cbn. right. right. left. reflexivity.
  - split; [reflexivity|]. split; [reflexivity|]. split; [reflexivity|]. split; [split; [reflexivity|split; [vm_compute; discriminate|reflexivity]]|]. vm_compute; reflexivity.
Qed.

Print Assumptions C59_numbers.
Print Assumptions C59_ids.
Print Assumptions C59_address_partial.
Print Assumptions C59_high_refuted.
Print Assumptions C59_large_refuted.
Print Assumptions C59_rom_refuted.
