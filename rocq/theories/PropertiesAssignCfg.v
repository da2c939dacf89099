(** C65: addresses assigned by configuration writes in an enumerated tree. *)
From Verif Require Import Base SpecTlp ModelUtils ModelTlp ModelAttrs ModelCapList ModelConfig ModelFunction ModelHost ModelPci ModelRoute ModelEnum ModelAssign SpecBar SpecRoute SpecEnum SpecAssign ModelTree SpecTree
  ModelTreeCfg ModelScan SpecScan ModelEnumCfg SpecEnumCfg ModelAssignCfg SpecAssignCfg ProofsAssignTree PropertiesTree PropertiesEnumCfg.

(** The writes of the host (core/pci.py:1153-1297) go through the tree to the functions they are for, and no further function changes: afterwards every BAR register holds the address that
    ModelAssign.v has for it, every bridge has the windows for what is behind it, and all numbers are as before.  The addresses that the host then knows are the same. *)
Theorem C65_assigns_partial : forall tg m h h' b b' z l n l', to_assign m h h' b b' z l n l' ->
  exists z' n', cfg_assign (fun dev => config_write (cfg_ask (tg dev)) dev) b' l z = Ok (z', n', l') /\ Forall2 same_adev n' n /\
    exists f zs, open_net l l' z' = Net f true zs /\ host_like f /\ (forall k, SpecAssign.windows f k = (lim k l, lim k l')) /\ Forall2 addressed n zs /\ Forall2 (numbered 0) (hw_below h') zs.
Proof.
  intros tg m h h' b b' z l n l' U. destruct (assigned tg m h h' b b' z l l' n U) as (z' & n' & E & S & _ & R). exists z', n'. auto.
Qed.
(** Hence C59 holds of the tree that the writes leave: what goes by number ... *)
Theorem C65_ids_partial : forall tg m h h' b b' z l n l', to_assign m h h' b b' z l n l' ->
  forall z' n' lx, cfg_assign (fun dev => config_write (cfg_ask (tg dev)) dev) b' l z = Ok (z', n', lx) ->
  forall t ty dst, tlp_check t = Ok true -> fmt_type t = Ok ty -> route_of ty t = TBus dst \/ route_of ty t = TBack dst -> dst <> mkId 0 0 0 -> 0 <= bus dst < 256 ->
  (In dst (map number (below_functions h')) -> exists g t', reach (open_net l lx z') t = Ok (Some (g, t')) /\ f_id g = dst /\ In g (map fst (below (open_net l lx z'))) /\ arrived t t') /\
  (~ In dst (map number (below_functions h')) -> reach (open_net l lx z') t = Ok None).
Proof. intros tg m h h' b b' z l n l' U. exact (assigned_ids tg m h h' b b' z l l' n U). Qed.
(** ... and what goes by address. *)
Theorem C65_address_partial : forall tg m h h' b b' z l n l', to_assign m h h' b b' z l n l' ->
  forall z' n' lx, cfg_assign (fun dev => config_write (cfg_ask (tg dev)) dev) b' l z = Ok (z', n', lx) ->
  forall t ty io x, tlp_check t = Ok true -> fmt_type t = Ok ty -> route_of ty t = TAddr io x -> 0 <= x < 2 ^ 64 ->
  (forall k, (granule k | lim k l)) -> apart l lx -> (forall p a, In (p, a) (flat_map bar_allocs n) -> decodes io x a) ->
  (forall p a, In (p, a) (flat_map bar_allocs n) -> holds io x a ->
    exists g nb j, reach (open_net l lx z') t = Ok (Some (g, t)) /\ In (g, nb) (below (open_net l lx z')) /\ f_id g = p_id p /\
      match_bar nb x io (f_attr g) = Ok (Some (j, x - a_addr a)) /\ a_reg a = 0x10 + 4 * j) /\
  ((forall p a, In (p, a) (flat_map bar_allocs n) -> ~ holds io x a) -> reach (open_net l lx z') t = Ok None).
Proof. intros tg m h h' b b' z l n l' U. exact (assigned_address tg m h h' b b' z l l' n U). Qed.

(** ** Example: the tree of C59 when it is enumerated.  The host has read other addresses from the BARs than ModelEnum.v has. *)
Definition ea_f (i : pcie_id) (l : list (attr * Z)) : fnc := mkFn (ex_attrs l) (fun _ => pm_cap_new) [] [] i.
Definition ea_br (i : pcie_id) (pri sec sub : Z) : fnc :=
  ea_f i [(fn_pri_bus_num, pri); (fn_sec_bus_num, sec); (fn_sub_bus_num, sub); (fn_io_limit, 0xfff); (fn_mem_limit, 0xfffff); (fn_prefetchable_mem_limit, 0xfffff)].
Definition ea_net : net :=
  Net (ex_f 0 0 [(fn_sub_bus_num, 255)]) true [Net (ea_br (mkId 0 1 0) 0 1 3) true [Net (ea_br (mkId 1 0 0) 1 2 3) true [Net (ea_br (mkId 2 1 0) 2 3 3) true [Net (ea_f (mkId 3 0 0) ex_a0) false []; Net (ea_f (mkId 3 0 1) ex_a1) false []]]]].
Definition ea_bus : pbus := match scan_root 0 (ex_hw ex_b0 ex_b1 0x800) with Ok (_, b) => b | Err _ => PBus 0 0 0 [] end.
Definition ea_raw (p : pfn) : pfn :=
  mkPf (p_id p) (p_type p) (p_multi p) (p_exp p) (map (fun '(raw, size) => (if raw =? 0x0000000c0000000c then 0xffff00000000000c else raw, size)) (p_bars p)) (if snd (p_rom p) =? 0 then 0 else 0xfffff801, snd (p_rom p)).
Fixpoint ea_read (b : pbus) : pbus :=
  match b with PBus n q m ds => PBus n q m (map (fun '(p, o) => (ea_raw p, match o with Some c => Some (ea_read c) | None => None end)) ds) end.
Example C65_ex : exists h' n l', to_assign 0 (ex_hw ex_b0 ex_b1 0x800) h' ea_bus (ea_read ea_bus) ea_net ex_l n l' /\ ea_read ea_bus <> ea_bus /\ apart ex_l l' /\ (forall k, (granule k | lim k ex_l)) /\
  match cfg_assign (fun dev => config_write (cfg_ask (fun _ => 5)) dev) (ea_read ea_bus) ex_l ea_net with
  | Ok (z', _, _) => let z := open_net ex_l l' z' in
    who (reach z (mem_ex 0xc0000ffc)) = Ok (Some (mkId 3 0 0, Ok MEM_READ_64)) /\ who (reach z (mem_ex 0x8000000000012340)) = Ok (Some (mkId 3 0 1, Ok MEM_READ_64)) /\
    who (reach z (io_ex 0x80000010)) = Ok (Some (mkId 3 0 0, Ok IO_READ)) /\ who (reach z (mem_ex 0xc0001000)) = Ok None /\ who (reach z (cfg_ex (mkId 3 0 1))) = Ok (Some (mkId 3 0 1, Ok CFG_READ_0))
  | Err _ => False
  end.
Proof.
  do 3 eexists. split; [|split; [vm_compute; discriminate|split; [|split; [intros []; [exists 0x80000|exists 0xc00|exists 0x80000000000]; reflexivity|]]]].
  - split; [apply ex_good|]. split; [vm_compute; reflexivity|]. split; [|split; [|split; [vm_compute; reflexivity|]]].
    + eexists. eexists. split; [reflexivity|]. split; [split; [reflexivity|]; split; [cbn; auto|reflexivity]|].
      assert (Br : forall i p s u, whole (ea_br i p s u)) by (intros i p s u k; exists 0, 0; destruct k; vm_compute; repeat split; discriminate).
      assert (N : forall i p s u, exists lay, laid_out (f_attr (ea_br i p s u)) 0 lay /\ total_slots lay = 2 /\ seen lay [(0, 0); (0, 0)]) by (intros; exists [None; None]; cbn; repeat split).
      assert (N0 : forall i p s u, exists lay, laid_out (f_attr (ea_br i p s u)) 0 lay /\ total_slots lay = net_bars true) by (intros; exists [None; None]; cbn; repeat split).
      assert (L0 : laid_out (ex_attrs ex_a0) 0 [Some (BMem false false, 12, 0); Some (BIo, 8, 0); None; None; None; None]) by bars.
      assert (L1 : laid_out (ex_attrs ex_a1) 0 [Some (BMem true true, 20, 0); None; None; None; None]) by bars.
      split; (constructor; [|constructor]).
      * cbn [shown].
        repeat match goal with
          | |- exists lay, laid_out (f_attr (ea_br _ _ _ _)) 0 lay /\ _ => apply N
          | |- true = true -> _ => intros _; apply Br
          | |- false = true -> _ => discriminate
          | |- exists lay, laid_out _ 0 lay /\ total_slots lay = _ /\ seen lay _ => first [eexists; split; [exact L0|]; split; [reflexivity|cbn [h_bars]; bars] | eexists; split; [exact L1|]; split; [reflexivity|cbn [h_bars]; bars]]
          | |- _ /\ _ => split
          | |- True => exact Logic.I
          | |- SpecAssign.size_ok _ _ => first [left; reflexivity | right; exists 11; split; [lia|reflexivity]]
          | |- 0 <= _ => cbn; lia
          | |- _ = _ => reflexivity
          end.
      * cbn [numbered].
        repeat match goal with
          | |- exists lay, laid_out (f_attr (ea_br _ _ _ _)) 0 lay /\ _ => apply N0
          | |- exists lay, laid_out _ 0 lay /\ total_slots lay = _ => first [eexists; split; [exact L0|reflexivity] | eexists; split; [exact L1|reflexivity]]
          | |- _ /\ _ => split
          | |- True => exact Logic.I
          | |- _ = _ => reflexivity
          end.
    + unfold ea_bus. vm_compute scan_root. cbn [ea_read map]. assert (Al : forall p lay, total_slots lay = (if p_type p =? 1 then 2 else 6) -> seen lay (p_bars (ea_raw p)) -> seen lay (p_bars p) -> alike (ea_raw p) p).
      { intros p lay T S1 S2. do 5 (split; [reflexivity|]). exists lay. split; [exact T|]. split; [exact S1|exact S2]. }
      repeat first [apply Same | apply SameNil | apply SameBr | apply SameFn];
        try (apply (Al _ [None; None]); cbn; auto; fail);
        [apply (Al _ [Some (BMem false false, 12, 0); Some (BIo, 8, 0); None; None; None; None])|apply (Al _ [Some (BMem true true, 20, 0); None; None; None; None])]; cbn; repeat split; try lia.
    + intros []; split; reflexivity.
  - left. reflexivity.
  - vm_compute. repeat split.
Qed.
(** All of [enumerate] on the tree of C64, which has no numbers and no addresses yet: the root port and the endpoint are found, and then the endpoint answers at the addresses of its two BARs. *)
Example C65_run_ex : match cfg_enumerate (fun dev => config_read (cfg_ask (fun _ => 5)) None dev) (fun dev => config_write (cfg_ask (fun _ => 5)) dev) 5 1 ex_l en_net with
  | Ok (z, _, n, _) =>
    map (fun e => (p_id (fst e), a_reg (snd e), a_addr (snd e), a_size (snd e))) (flat_map bar_allocs n) = [(mkId 1 0 0, 0x10, 0xc0000000, 2 ^ 16); (mkId 1 0 0, 0x14, 0x8000000000000000, 2 ^ 20)] /\
    who (reach z (mem_ex 0xc000fffc)) = Ok (Some (mkId 1 0 0, Ok MEM_READ_64)) /\ who (reach z (mem_ex 0x80000000000ffffc)) = Ok (Some (mkId 1 0 0, Ok MEM_READ_64)) /\
    who (reach z (mem_ex 0xc0010000)) = Ok None /\ who (reach z (mem_ex 0x8000000000100000)) = Ok None
  | Err _ => False
  end.
Proof. vm_compute. repeat split. Qed.

Print Assumptions C65_assigns_partial.
Print Assumptions C65_ids_partial.
Print Assumptions C65_address_partial.
