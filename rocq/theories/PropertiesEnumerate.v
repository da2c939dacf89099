(** C66: all of [RootComplex.enumerate] (core/rc.py:867-895), by configuration requests in a tree of functions that have no numbers yet. *)
From Verif Require Import Base SpecTlp ModelUtils ModelTlp ModelAttrs ModelCapList ModelConfig ModelFunction ModelHost ModelPci ModelRoute ModelEnum ModelAssign SpecBar SpecRoute SpecEnum SpecAssign ModelTree SpecTree
  ModelTreeCfg ModelScan SpecScan ModelEnumCfg SpecEnumCfg ModelAssignCfg SpecAssignCfg ProofsMps ProofsTreeAll ProofsAssignTree ProofsEnumEnd PropertiesTree PropertiesEnumCfg.
Require Import Sorted.

(** Any tree with up to 256 buses and registers as [system] and [shown] have them: the scan ends without an error, and then every function has captured the number by which the host knows it, all
    numbers are different, and the buses are numbered without a gap.  The abstract tree [h'] is [h] with these bus numbers and payload sizes. *)
Theorem C66_numbers : forall fuel m tg crs h z, system fuel h z -> good_system m h -> bridges h <= 256 -> (exists f zs, z = Net f true zs /\ host_like f /\ Forall2 shown (hw_below h) zs) ->
  exists h' z' b', cfg_scan_root (fun dev => config_read (cfg_ask (tg dev)) (crs dev) dev) (fun dev => config_write (cfg_ask (tg dev)) dev) fuel m z = Ok (z', b') /\
    forget h' = forget h /\ buses h' = interval 0 (bridges h - 1) /\ system fuel h' z' /\ same_bus b' (PBus 0 0 (bridges h - 1) (map (view 0) (hw_below h'))) /\
    map (fun e => f_id (fst e)) (below z') = map p_id (bus_fns b') /\ NoDup (map (fun e => f_id (fst e)) (below z')) /\ map p_id (bus_fns b') = map number (below_functions h').
Proof.
  intros fuel m tg crs h z Sy G Le Z. destruct (enumeration m h G Le) as (h' & Sc & Fo & Bu). destruct (enum_numbers fuel m tg crs h z h' _ Sy G Sc Z) as (z' & b' & E & Sy' & Sb & f & zs & Ez & _ & _ & N).
  exists h', z', b'. split; [exact E|]. split; [exact Fo|]. split; [exact Bu|]. split; [exact Sy'|]. split; [exact Sb|]. destruct (ProofsMps.found m h h' _ G Sc) as [F D].
  assert (I : map (fun e => f_id (fst e)) (below z') = map number (below_functions h')) by (subst z'; cbn [below]; destruct Sy' as (_ & S0 & _); unfold below_functions; rewrite S0; exact (ids_all 0 _ _ N)).
  rewrite (same_numbers_found _ _ Sb). rewrite I. rewrite F in D |- *. split; [reflexivity|]. split; [exact D|reflexivity].
Qed.
(** The scan and the assignment of addresses from [l] on: [enumerate] returns, with the devices found and the addresses that ModelEnum.v and ModelAssign.v have for the tree; configuration requests and
    completions then reach the functions with the numbers in them and nobody else, memory and I/O requests those whose BARs have the addresses and nobody else (under the conditions of C59). *)
Theorem C66_enumerate_partial : forall fuel m tg crs h z l h' b n l', system fuel h z -> brought_up m h z l h' b n l' ->
  exists z' b' n', cfg_enumerate (fun dev => config_read (cfg_ask (tg dev)) (crs dev) dev) (fun dev => config_write (cfg_ask (tg dev)) dev) fuel m l z = Ok (z', b', n', l') /\
    same_bus b' b /\ Forall2 same_adev n' n /\ map (fun e => f_id (fst e)) (below z') = map p_id (bus_fns b') /\
    (forall t ty dst, tlp_check t = Ok true -> fmt_type t = Ok ty -> route_of ty t = TBus dst \/ route_of ty t = TBack dst -> dst <> mkId 0 0 0 -> 0 <= bus dst < 256 ->
      (In dst (map p_id (bus_fns b')) -> exists g t', reach z' t = Ok (Some (g, t')) /\ f_id g = dst /\ In g (map fst (below z')) /\ arrived t t') /\
      (~ In dst (map p_id (bus_fns b')) -> reach z' t = Ok None)) /\
    (forall t ty io x, tlp_check t = Ok true -> fmt_type t = Ok ty -> route_of ty t = TAddr io x -> 0 <= x < 2 ^ 64 ->
      (forall k, (granule k | lim k l)) -> apart l l' -> (forall p a, In (p, a) (flat_map bar_allocs n) -> decodes io x a) ->
      (forall p a, In (p, a) (flat_map bar_allocs n) -> holds io x a ->
        exists g nb j, reach z' t = Ok (Some (g, t)) /\ In (g, nb) (below z') /\ f_id g = p_id p /\ match_bar nb x io (f_attr g) = Ok (Some (j, x - a_addr a)) /\ a_reg a = 0x10 + 4 * j) /\
      ((forall p a, In (p, a) (flat_map bar_allocs n) -> ~ holds io x a) -> reach z' t = Ok None)).
Proof.
  intros fuel m tg crs h z l h' b n l' Sy U. destruct (enum_ends fuel m tg crs h z l h' b n l' Sy U) as (z1 & b' & E & A). destruct (assigned tg m h h' b b' z1 l l' n A) as (z' & n' & C & Sn & _ & f & zs & Eo & _ & _ & _ & N).
  pose proof A as (G & Sc & _ & Sb & _). destruct (ProofsMps.found m h h' b G Sc) as [F _]. exists (open_net l l' z'), b', n'. rewrite (same_numbers_found _ _ Sb), F. split; [unfold cfg_enumerate; rewrite E; cbn [bind]; rewrite C; reflexivity|]. split; [exact Sb|]. split; [exact Sn|].
  assert (S0 : h_sec (hw_fn h') = 0) by (destruct U as (_ & _ & _ & _ & f0 & zs0 & _ & _ & S); destruct (enumerated_fine m h h' b zs0 G Sc S) as (_ & S0 & _); exact S0).
  split; [rewrite Eo; cbn [below]; unfold below_functions; rewrite S0; exact (ids_all 0 _ _ N)|]. split; [exact (assigned_ids tg m h h' b b' z1 l l' n A z' n' l' C)|exact (assigned_address tg m h h' b b' z1 l l' n A z' n' l' C)].
Qed.

(** ** Example: the tree of C64, which has no numbers and no addresses yet.  What [enumerate] computes in it is in C64_run_ex and C65_run_ex. *)
Lemma en_good : good_system 1 en_hw.
Proof.
  assert (G : forall d ty e b, 0 <= d < 32 -> ty = 0 \/ ty = 1 -> good_fn (en_x d ty e b)) by (intros; unfold good_fn; cbn; repeat split; try lia).
  unfold good_system, en_hw. cbn [hw_fn hw_below h_type h_exp h_sec h_sub h_mps]. repeat (split; [first [reflexivity|lia]|]). split.
  - cbn [hw_all]. unfold good_node, good_bus. cbn [hw_fn hw_below].
    repeat match goal with
      | |- _ /\ _ => split
      | |- True => exact Logic.I
      | |- StronglySorted _ _ => constructor
      | |- Forall _ [] => constructor
      | |- Forall _ (_ :: _) => apply Forall_cons
      | |- good_fn _ => apply G; lia
      | |- h_type _ = 0 -> _ => intros; first [reflexivity|discriminate]
      | |- _ -> _ => intro
      | |- forall _, _ => intro
      | H : In _ _ |- _ => cbn [In] in H
      | H : False |- _ => destruct H
      | H : _ \/ _ |- _ => destruct H
      | H : Hw _ _ = _ |- _ => subst
      end;
    try reflexivity; try (cbn in *; congruence);
    try (match goal with H : port_type _ _ |- _ => destruct H as (? & H); cbn in H; discriminate end);
    try (eexists; split; [left; reflexivity|split; reflexivity]).
  - apply Forall_cons; [|constructor]. split; [cbn; lia|split].
    + intros k E. injection E as <-. lia.
    + cbn. repeat split; constructor; try constructor. intros (k & E). discriminate E.
Qed.
Example C66_ex : system 5 en_hw en_net /\ bridges en_hw <= 256 /\ exists h' b n l', brought_up 1 en_hw en_net ex_l h' b n l' /\ apart ex_l l' /\ (forall k, (granule k | lim k ex_l)) /\
  map (fun e => (p_id (fst e), a_addr (snd e))) (flat_map bar_allocs n) = [(mkId 1 0 0, 0xc0000000); (mkId 1 0 0, 0x8000000000000000)].
Proof.
  split; [exact (proj1 C64_ex)|]. split; [vm_compute; discriminate|]. do 4 eexists. split; [|split; [|split; [intros []; [exists 0x80000|exists 0xc00|exists 0x80000000000]; reflexivity|]]].
  - split; [exact en_good|]. split; [vm_compute; reflexivity|]. split; [vm_compute; reflexivity|]. split; [intros []; split; reflexivity|].
    eexists. eexists. split; [reflexivity|]. split; [split; [reflexivity|split; [vm_compute; repeat split|reflexivity]]|]. constructor; [|constructor].
    apply shown_eq. split; [reflexivity|]. split; [reflexivity|]. split; [reflexivity|]. split; [exists [None; None]; repeat split; vm_compute; reflexivity|]. split; [left; reflexivity|]. split; [cbn; lia|]. split; [intros _ k; exists 0, 0; destruct k; vm_compute; repeat split; discriminate|].
    constructor; [|constructor]. apply shown_eq. split; [reflexivity|]. split; [reflexivity|]. split; [reflexivity|]. split; [|split; [left; reflexivity|split; [cbn; lia|split; [discriminate|constructor]]]].
    exists [Some (BMem false false, 16, 0); Some (BMem true true, 20, 0); None; None; None]. repeat split; try (vm_compute; congruence); try (cbn; lia).
  - left. reflexivity.
  - vm_compute. reflexivity.
Qed.

Print Assumptions C66_numbers.
Print Assumptions C66_enumerate_partial.
