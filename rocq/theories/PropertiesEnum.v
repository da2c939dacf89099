(** C32, C34: enumeration. *)
From Verif Require Import Base ModelUtils ModelTlp ModelAttrs ModelConfig ModelFunction ModelRoute ModelChan ModelEnum SpecEnum ProofsEnum ProofsEnumFacts ProofsMps.
Require Import Sorting.Sorted.

(** ** C32.  A system with up to 256 buses is enumerated without an error; nothing but bus numbers and payload sizes changes; the buses
    are numbered 0, 1, 2 ... without repetition; and the host's tree of buses and devices is the one that is there. *)
Theorem C32_enumeration : forall m h, good_system m h -> bridges h <= 256 ->
  exists h', scan_root m h = Ok (h', PBus 0 0 (bridges h - 1) (map (view 0) (hw_below h'))) /\
    forget h' = forget h /\ buses h' = interval 0 (bridges h - 1).
Proof. exact enumeration. Qed.
(** Every bridge's range has exactly the buses below it, those of bridges on a bus do not meet, and follow it. *)
Theorem C32_ranges : forall m h h' b, good_system m h -> scan_root m h = Ok (h', b) ->
  ordered 0 (hw_below h') /\
  Forall (hw_all (fun y => is_bridge (hw_fn y) = true ->
    buses y = interval (h_sec (hw_fn y)) (h_sub (hw_fn y)) /\ ordered (h_sec (hw_fn y)) (hw_below y))) (hw_below h').
Proof. exact ranges. Qed.
(** Every function is found, and found once. *)
Theorem C32_found : forall m h h' b, good_system m h -> scan_root m h = Ok (h', b) ->
  map p_id (bus_fns b) = map number (below_functions h') /\ NoDup (map p_id (bus_fns b)).
Proof. exact found. Qed.
(** The numbers work: an access reaches the function that has the number, and no other. *)
Theorem C32_access : forall m h h' b, good_system m h -> scan_root m h = Ok (h', b) ->
  forall n d f x, hw_get n d f h' = Some x <-> In (n, x) (below_functions h') /\ h_d x = d /\ h_f x = f.
Proof. exact accesses. Qed.
(** With more buses there are no numbers left: an error. *)
Theorem C32_limit : forall m h, good_system m h -> 256 < bridges h -> scan_root m h = Err ValueError.
Proof. exact limit. Qed.
(** What [hw_get] says of one bus is what the bridges do with configuration requests (ModelRoute.v). *)
Theorem C32_type0 : forall f x l t ty, fmt_type t = Ok ty -> In ty [CFG_READ_0; CFG_WRITE_0] -> device (f_id f) = h_d x -> func (f_id f) = h_f x ->
  match_tlp 2 f t = Ok (is_at (device (completer_id t)) (func (completer_id t)) (Hw x l)) /\
  match_tlp 6 f t = Ok (is_at (device (completer_id t)) (func (completer_id t)) (Hw x l)) /\ match_secondary f t = Ok false.
Proof. exact type0. Qed.
Theorem C32_type1 : forall f x l t ty, fmt_type t = Ok ty -> In ty [CFG_READ_1; CFG_WRITE_1] -> is_bridge x = true ->
  f_attr f fn_sec_bus_num = h_sec x -> f_attr f fn_sub_bus_num = h_sub x -> bus (completer_id t) <> 0 ->
  match_tlp 2 f t = Ok false /\ match_secondary f t = Ok (claims_bus (bus (completer_id t)) (Hw x l)).
Proof. exact type1. Qed.

(** ** C34.  No function is told to use more than it supports. *)
Theorem C34_own : forall m h h' b, good_system m h -> reset h -> scan_root m h = Ok (h', b) -> Forall (all_fns own) (hw_below h').
Proof. exact own_sizes. Qed.
(** In the hierarchy of a root port, payload sizes are consistent exactly if all functions support what the first function below the port
    can handle of the size the host asks for; then all use that.  Missing: other hierarchies, for which the property is false. *)
Theorem C34_partial : forall m h h' b, good_system m h -> reset h -> scan_root m h = Ok (h', b) ->
  forall z, In z (hw_below h') -> port_type (hw_fn z) 4 -> all_fns in_hierarchy z ->
  (all_fns (supports (first_size m z)) z -> all_fns (fun x => h_mps x = first_size m z) z) /\
  (consistent z <-> all_fns (supports (first_size m z)) z).
Proof. exact sizes. Qed.
(** With the size the host uses unless told otherwise, that is always so. *)
Theorem C34_default : forall h h' b, good_system 0 h -> reset h -> scan_root 0 h = Ok (h', b) ->
  forall z, In z (hw_below h') -> port_type (hw_fn z) 4 -> all_fns in_hierarchy z -> consistent z.
Proof. exact default_sizes. Qed.

(** ** Examples *)
(** A switch with an endpoint below each of two ports at the first root port, an endpoint with two functions at the second. *)
Definition ex_fn (d f : Z) (ty : Z) (multi : bool) (e s : Z) : hfn := mkHf d f 0x12345678 ty multi (Some (e, s)) 0 0 0 0 [] (0, 0).
Definition ex_root (l : list hw) : hw := Hw (mkHf 0 0 0x12345678 1 false None 0 0 0 255 [] (0, 0)) l.
Definition ex_system (s : Z) : hw := ex_root
  [ Hw (ex_fn 1 0 1 false 4 5) [ Hw (ex_fn 0 0 1 false 5 2)
      [ Hw (ex_fn 1 0 1 false 6 3) [ Hw (ex_fn 0 0 0 false 0 s) [] ]; Hw (ex_fn 2 0 1 false 6 3) [ Hw (ex_fn 0 0 0 false 0 4) [] ] ] ];
    Hw (ex_fn 2 0 1 false 4 5) [ Hw (ex_fn 0 0 0 true 0 1) []; Hw (ex_fn 0 3 0 true 0 s) [] ] ].
Lemma ex_good m s : 0 <= m <= 5 -> 0 <= s <= 5 -> good_system m (ex_system s).
Proof.
  intros Hm Hs.
  assert (G : forall d f ty mu e k, 0 <= d < 32 -> 0 <= f < 8 -> ty = 0 \/ ty = 1 -> 0 <= k <= 5 -> good_fn (ex_fn d f ty mu e k)).
  { intros. unfold good_fn. cbn. repeat split; try lia. }
  assert (N : forall d f ty mu e k, e <> 4 -> ~ port_type (ex_fn d f ty mu e k) 4) by (intros d f ty mu e k N (k' & E); injection E; auto).
  unfold good_system, ex_system, ex_root. cbn [hw_fn hw_below h_type h_exp h_sec h_sub h_mps].
  repeat (split; [first [reflexivity|lia]|]). split.
  - cbn [hw_all]. unfold good_node, good_bus. cbn [hw_fn hw_below].
    repeat match goal with
      | |- _ /\ _ => split
      | |- True => exact Logic.I
      | |- StronglySorted _ _ => constructor
      | |- Forall _ [] => constructor
      | |- Forall _ (_ :: _) => apply Forall_cons
      | |- good_fn _ => apply G; lia
      | |- key _ < key _ => reflexivity
      | |- h_type _ = 0 -> _ => intros; first [reflexivity|discriminate]
      | |- _ -> _ => intro
      | |- forall _, _ => intro
      | H : In _ _ |- _ => cbn [In] in H
      | H : False |- _ => destruct H
      | H : _ \/ _ |- _ => destruct H
      | H : Hw _ _ = _ |- _ => subst
      end;
    try reflexivity; try (cbn in *; congruence); try (cbn in *; lia);
    try (match goal with H : port_type _ _ |- _ => destruct H as (? & H); cbn in H; discriminate end);
    try (eexists; split; [left; reflexivity|split; reflexivity]);
    try (eexists; split; [right; left; reflexivity|split; reflexivity]).
  - repeat (apply Forall_cons; [|]); [| |constructor]; (split; [cbn; lia|split]).
    + intros k E. injection E as <-. lia.
    + cbn. repeat match goal with |- _ /\ _ => split | |- True => exact Logic.I | |- Forall _ _ => constructor | |- ~ port_type _ _ => apply N; lia end.
    + intros k E. injection E as <-. lia.
    + cbn. repeat match goal with |- _ /\ _ => split | |- True => exact Logic.I | |- Forall _ _ => constructor | |- ~ port_type _ _ => apply N; lia end.
Qed.
Lemma ex_reset s : reset (ex_system s).
Proof. unfold reset, ex_system, ex_root. cbn. repeat first [constructor|split]; reflexivity. Qed.
(** Buses 0 to 5; root port 1 has 1 to 4 *)
Example C32_ex : match scan_root 3 (ex_system 2) with
  | Ok (h, b) => buses h = [0; 1; 2; 3; 4; 5] /\ map (fun z => (h_sec (hw_fn z), h_sub (hw_fn z))) (hw_below h) = [(1, 4); (5, 5)] /\
      map p_id (bus_fns b) = [mkId 0 1 0; mkId 1 0 0; mkId 2 1 0; mkId 3 0 0; mkId 2 2 0; mkId 4 0 0; mkId 0 2 0; mkId 5 0 0; mkId 5 0 3] /\
      hw_get 4 0 0 h <> None /\ hw_get 4 1 0 h = None /\ hw_get 6 0 0 h = None
  | Err _ => False
  end.
Proof. vm_compute. repeat split; discriminate. Qed.
(** All functions below the first root port use 512 bytes, those below the second 256. *)
Example C34_ex : match scan_root 3 (ex_system 2) with
  | Ok (h, b) => map (fun e => h_mps (snd e)) (below_functions h) = [2; 2; 2; 2; 2; 2; 1; 1; 1] /\ map (first_size 3) (hw_below h) = [2; 1]
  | Err _ => False
  end.
Proof. vm_compute. split; reflexivity. Qed.

(** ** Refuted: a function may be left with a larger payload size than another in the same hierarchy supports.  The port type 4 bridge is
    lowered for a function right below it, but neither the functions found before it are, nor are switches for functions below them.  In the
    first hierarchy, root port and switch use 512 bytes and an endpoint supports 256 only; in the second, function 0 uses 256 bytes, and
    function 3 supports 128. *)
Theorem C34_refuted : exists m h h' b, good_system m h /\ reset h /\ scan_root m h = Ok (h', b) /\
  Forall (fun z => port_type (hw_fn z) 4 /\ all_fns in_hierarchy z /\ ~ consistent z) (hw_below h') /\ hw_below h' <> [].
Proof.
  assert (G := ex_good 3 0 ltac:(lia) ltac:(lia)).
  destruct (C32_enumeration 3 (ex_system 0) G ltac:(vm_compute; discriminate)) as (h' & E & _).
  exists 3, (ex_system 0), h'. eexists. split; [exact G|]. split; [apply ex_reset|]. split; [exact E|].
  assert (X : match scan_root 3 (ex_system 0) with
    | Ok (h, _) => hw_below h = [
        Hw (put_buses 0 1 4 (put_mps 2 (ex_fn 1 0 1 false 4 5))) [ Hw (put_buses 1 2 4 (put_mps 2 (ex_fn 0 0 1 false 5 2)))
          [ Hw (put_buses 2 3 3 (put_mps 2 (ex_fn 1 0 1 false 6 3))) [ Hw (ex_fn 0 0 0 false 0 0) [] ];
            Hw (put_buses 2 4 4 (put_mps 2 (ex_fn 2 0 1 false 6 3))) [ Hw (put_mps 2 (ex_fn 0 0 0 false 0 4)) [] ] ] ];
        Hw (put_buses 0 5 5 (put_mps 0 (ex_fn 2 0 1 false 4 5))) [ Hw (put_mps 1 (ex_fn 0 0 0 true 0 1)) []; Hw (ex_fn 0 3 0 true 0 0) [] ] ]
    | Err _ => False end) by (vm_compute; reflexivity).
  rewrite E in X. rewrite X. split; [|discriminate].
  assert (I : forall d f ty mu e k v, e <> 9 -> in_hierarchy (put_mps v (ex_fn d f ty mu e k))) by (intros d f ty mu e k v Ne; exists e, k; auto).
  apply Forall_cons; [|apply Forall_cons; [|constructor]].
  - split; [exists 5; reflexivity|]. split.
    + unfold all_fns. cbn. repeat split; eexists _, _; (split; [reflexivity|lia]).
    + intros Co. unfold consistent, all_fns in Co. cbn in Co. destruct Co as ((_ & (_ & (_ & ((t & s & Es & L) & _) & _) & _) & _) & _). injection Es as <- <-. lia.
  - split; [exists 5; reflexivity|]. split.
    + unfold all_fns. cbn. repeat split; eexists _, _; (split; [reflexivity|lia]).
    + intros Co. unfold consistent, all_fns in Co. cbn in Co. destruct Co as (_ & ((_ & _ & ((t & s & Es & L) & _) & _) & _) & _). injection Es as <- <-. lia.
Qed.

Print Assumptions C32_enumeration.
Print Assumptions C32_ranges.
Print Assumptions C32_found.
Print Assumptions C32_access.
Print Assumptions C32_limit.
Print Assumptions C32_type0.
Print Assumptions C32_type1.
Print Assumptions C34_own.
Print Assumptions C34_partial.
Print Assumptions C34_default.
Print Assumptions C34_refuted.
