(** C60: after enumeration and assignment, what a function sends reaches the host or the function that it is for, if there is a way; else nobody. *)
From Verif Require Import Base ModelUtils ModelTlp ModelAttrs ModelCapList ModelConfig ModelFunction ModelRoute ModelEnum ModelAssign SpecBar SpecRoute SpecEnum SpecAssign
  ModelTree SpecTree ModelTreeUp SpecTreeUp ProofsTreeAll ProofsTreeUpAll PropertiesTree.
Require Import Sorting.Sorted.

(** Functions are named by paths: every number that enumeration has found is that of the function on exactly one path. *)
Theorem C60_paths : forall m h z l h' b n l', brought_up m h z l h' b n l' ->
  (forall dst, In dst (map number (below_functions h')) <-> exists q w, q <> [] /\ net_at (set_up h' n l l' z) q = Some w /\ f_id (net_fn w) = dst) /\
  (forall q q' w w', net_at (set_up h' n l l' z) q = Some w -> net_at (set_up h' n l l' z) q' = Some w' -> f_id (net_fn w) = f_id (net_fn w') -> q = q').
Proof. intros m h z l h' b n l' U. apply up_arranged in U. split; [exact (path_ids m h _ l h' b n l' U)|exact (path_once m h _ l h' b n l' U)]. Qed.
(** A completion from the function on path [p]: for the host (0:0.0), it leaves the tree at the top; for the function on path [q], it stops there if there is a way; for a number that no function has, it is dropped. *)
Theorem C60_ids : forall m h z l h' b n l', brought_up m h z l h' b n l' ->
  forall t ty dst p y, tlp_check t = Ok true -> fmt_type t = Ok ty -> route_of ty t = TBack dst -> p <> [] -> net_at (set_up h' n l l' z) p = Some y ->
  (dst = mkId 0 0 0 -> from_function (set_up h' n l l' z) p t = Ok (Passes t)) /\
  (forall q w, q <> [] -> net_at (set_up h' n l l' z) q = Some w -> f_id (net_fn w) = dst -> from_function (set_up h' n l l' z) p t = Ok (if way true p q then Stops (net_fn w) t else Drops)) /\
  (dst <> mkId 0 0 0 -> 0 <= bus dst < 256 -> ~ In dst (map number (below_functions h')) -> from_function (set_up h' n l l' z) p t = Ok Drops).
Proof. intros m h z l h' b n l' U. exact (up_back m h _ l h' b n l' (up_arranged _ _ _ _ _ _ _ _ U)). Qed.
(** A memory or I/O request from the function on path [p]: an address assigned to a BAR of the function on path [q] stops there if there is a way; an address that the host has not handed out leaves the tree at the top;
    an address that it has handed out, but for no BAR, is dropped.  Missing: as for C59_address_partial, and trees in which bridges have BARs or share their bus with functions that are not bridges. *)
Theorem C60_address_partial : forall m h z l h' b n l', brought_up m h z l h' b n l' ->
  forall t ty io x p y, tlp_check t = Ok true -> fmt_type t = Ok ty -> route_of ty t = TAddr io x -> 0 <= x < 2 ^ 64 ->
  tidy b -> (forall k, (granule k | lim k l)) -> apart l l' -> (forall p a, In (p, a) (flat_map bar_allocs n) -> decodes io x a) -> p <> [] -> net_at (set_up h' n l l' z) p = Some y ->
  (forall e a q w, In (e, a) (flat_map bar_allocs n) -> holds io x a -> q <> [] -> net_at (set_up h' n l l' z) q = Some w -> f_id (net_fn w) = p_id e ->
    from_function (set_up h' n l l' z) p t = Ok (if way true p q then Stops (net_fn w) t else Drops)) /\
  ((forall k, io_kind k = io -> ~ lim k l <= x <= lim k l') -> from_function (set_up h' n l l' z) p t = Ok (Passes t)) /\
  ((forall e a, In (e, a) (flat_map bar_allocs n) -> ~ holds io x a) -> forall k, io_kind k = io -> lim k l <= x <= lim k l' -> from_function (set_up h' n l l' z) p t = Ok Drops).
Proof. intros m h z l h' b n l' U. exact (up_request m h _ l h' b n l' (up_arranged _ _ _ _ _ _ _ _ U)). Qed.

(** ** Example: two root ports, an endpoint with two functions below the first, and one with one below the second *)
Definition up_hw : hw :=
  Hw (mkHf 0 0 0x12345678 1 false None 0 0 0 255 [(0, 0); (0, 0)] (0, 0))
    [Hw (ex_fn 1 0 1 false 4 [(0, 0); (0, 0)] 0) [Hw (ex_fn 0 0 0 true 0 ex_b0 0x800) []; Hw (ex_fn 0 1 0 true 0 ex_b1 0) []];
     Hw (ex_fn 2 0 1 false 4 [(0, 0); (0, 0)] 0) [Hw (ex_fn 0 0 0 false 0 ex_b0 0) []]].
Definition up_net : net :=
  Net (ex_f 0 0 [(fn_sub_bus_num, 255)]) true
    [Net (ex_br 1) true [Net (ex_f 0 0 ex_a0) false []; Net (ex_f 0 1 ex_a1) false []]; Net (ex_br 2) true [Net (ex_f 0 0 ex_a0) false []]].
Lemma up_good : good_system 0 up_hw.
Proof.
  assert (G : forall d f ty mu e b r, 0 <= d < 32 -> 0 <= f < 8 -> ty = 0 \/ ty = 1 -> good_fn (ex_fn d f ty mu e b r)).
  { intros. unfold good_fn. cbn. repeat split; try lia. }
  assert (N : forall d f ty mu e b r, e <> 4 -> ~ port_type (ex_fn d f ty mu e b r) 4) by (intros d f ty mu e b r N (k' & E); injection E; auto).
  unfold good_system, up_hw. cbn [hw_fn hw_below h_type h_exp h_sec h_sub h_mps].
  repeat (split; [first [reflexivity|lia]|]). split.
  - cbn [hw_all]. unfold good_node, good_bus. cbn [hw_fn hw_below].
    repeat match goal with
      | |- _ /\ _ => split
      | |- True => exact Logic.I
      | |- StronglySorted _ _ => constructor
      | |- Forall _ [] => constructor
      | |- Forall _ (_ :: _) => apply Forall_cons
      | |- good_fn _ => apply G; lia
      | |- key _ < key _ => reflexivity
      | |- h_type _ = 0 -> _ => intros; first [reflexivity|discriminate]
      | |- _ -> _ => intro
      | |- forall _, _ => intro
      | H : In _ _ |- _ => cbn [In] in H
      | H : False |- _ => destruct H
      | H : _ \/ _ |- _ => destruct H
      | H : Hw _ _ = _ |- _ => subst
      end;
    try reflexivity; try (cbn in *; congruence); try (cbn in *; lia);
    try (match goal with H : port_type _ _ |- _ => destruct H as (? & H); cbn in H; discriminate end);
    try (eexists; split; [left; reflexivity|split; reflexivity]);
    try (eexists; split; [right; left; reflexivity|split; reflexivity]).
  - repeat (apply Forall_cons || constructor); try (cbn; lia); try (intros k E; injection E as <-; lia);
    cbn; repeat match goal with |- _ /\ _ => split | |- True => exact Logic.I | |- Forall _ _ => constructor | |- ~ port_type _ _ => apply N; lia end.
Qed.
(** The number of the function where it stops *)
Definition end_of (r : res passage) : option (option pcie_id) := match r with Ok (Passes _) => Some (Some (mkId 0 0 0)) | Ok (Stops f _) => Some (Some (f_id f)) | Ok Drops => Some None | Err _ => None end.
Example C60_ex : exists h' b n l', brought_up 0 up_hw up_net ex_l h' b n l' /\ apart ex_l l' /\ tidy b /\
  let z := set_up h' n ex_l l' up_net in
  map (fun e => f_id (fst e)) (below z) = [mkId 0 1 0; mkId 1 0 0; mkId 1 0 1; mkId 0 2 0; mkId 2 0 0] /\
  map (fun e => (p_id (fst e), a_addr (snd e))) (flat_map bar_allocs n) =
    [(mkId 1 0 0, 0xc0000000); (mkId 1 0 0, 0x80000000); (mkId 1 0 1, 0x8000000000000000); (mkId 2 0 0, 0xc0100000); (mkId 2 0 0, 0x80001000)] /\
  (* from 1:0.1 *)
  end_of (from_function z [0; 1]%nat (mem_ex 0xc0100ffc)) = Some (Some (mkId 2 0 0)) /\ end_of (from_function z [0; 1]%nat (mem_ex 0xc0000ffc)) = Some None /\
  end_of (from_function z [0; 1]%nat (mem_ex 0x12345678)) = Some (Some (mkId 0 0 0)) /\ end_of (from_function z [0; 1]%nat (mem_ex 0xc0080000)) = Some None /\
  end_of (from_function z [0; 1]%nat (cpl_ex (mkId 0 0 0))) = Some (Some (mkId 0 0 0)) /\ end_of (from_function z [0; 1]%nat (cpl_ex (mkId 2 0 0))) = Some (Some (mkId 2 0 0)) /\
  end_of (from_function z [0; 1]%nat (cpl_ex (mkId 0 1 0))) = Some (Some (mkId 0 1 0)) /\ end_of (from_function z [0; 1]%nat (cpl_ex (mkId 3 0 0))) = Some None /\
  (* from 2:0.0 *)
  end_of (from_function z [1; 0]%nat (io_ex 0x80000010)) = Some (Some (mkId 1 0 0)) /\ end_of (from_function z [1; 0]%nat (mem_ex 0x8000000000012340)) = Some (Some (mkId 1 0 1)).
Proof.
  do 4 eexists. split; [|split; [|split]].
  - split; [exact up_good|]. split; [vm_compute; reflexivity|]. split; [vm_compute; reflexivity|]. split; [intros []; split; reflexivity|].
    eexists. eexists. split; [reflexivity|]. split; [split; [reflexivity|]; split; [cbn; auto|reflexivity]|].
    assert (Br : forall d, whole (ex_br d)) by (intros d k; exists 0, 0; destruct k; vm_compute; repeat split; discriminate).
    assert (N : forall d, exists lay, laid_out (f_attr (ex_br d)) 0 lay /\ total_slots lay = 2 /\ seen lay [(0, 0); (0, 0)]) by (intros d; exists [None; None]; cbn; repeat split).
    assert (N0 : exists lay, laid_out (ex_attrs ex_a0) 0 lay /\ total_slots lay = 6 /\ seen lay ex_b0).
    { exists [Some (BMem false false, 12, 0); Some (BIo, 8, 0); None; None; None; None]. split; [bars|]. split; [reflexivity|bars]. }
    assert (N1 : exists lay, laid_out (ex_attrs ex_a1) 0 lay /\ total_slots lay = 6 /\ seen lay ex_b1).
    { exists [Some (BMem true true, 20, 0); None; None; None; None]. split; [bars|]. split; [reflexivity|bars]. }
    cbn [hw_below up_hw]. repeat apply Forall2_cons; try constructor; cbn [shown];
    repeat match goal with
      | |- exists lay, laid_out (f_attr (ex_br _)) 0 lay /\ _ => apply N
      | |- true = true -> _ => intros _; apply Br
      | |- false = true -> _ => discriminate
      | |- exists lay, laid_out _ 0 lay /\ _ => first [exact N0|exact N1]
      | |- _ /\ _ => split
      | |- True => exact Logic.I
      | |- SpecAssign.size_ok _ _ => first [left; reflexivity | right; exists 11; split; [lia|reflexivity]]
      | |- 0 <= _ => cbn; lia
      | |- _ = _ => reflexivity
      end.
  - left. reflexivity.
  - cbn [tidy]. repeat split; intros H p o I; cbn [In] in I; try (destruct H as (p' & c & H); cbn [In] in H; repeat (destruct H as [H|H]; [discriminate H|]); destruct H);
      repeat (destruct I as [I|I]; [injection I as <- <-; reflexivity|]); destruct I.
  - vm_compute. repeat split.
Qed.

(** ** Refuted: a function cannot reach another function of the same device: the request goes up to the port, which finds the address behind itself. *)
Theorem C60_sibling_refuted : exists h z l h' b n l' e a p q w t, brought_up 0 h z l h' b n l' /\ apart l l' /\ (forall k, (granule k | lim k l)) /\ tidy b /\
  tlp_check t = Ok true /\ fmt_type t = Ok MEM_READ_64 /\ In (e, a) (flat_map bar_allocs n) /\ holds false (address t) a /\ (forall p a, In (p, a) (flat_map bar_allocs n) -> decodes false (address t) a) /\
  net_at (set_up h' n l l' z) p <> None /\ net_at (set_up h' n l l' z) q = Some w /\ f_id (net_fn w) = p_id e /\ p <> q /\
  reach (set_up h' n l l' z) t = Ok (Some (net_fn w, t)) /\ from_function (set_up h' n l l' z) p t = Ok Drops.
Proof.
  exists (ex_hw ex_b0 ex_b1 0x800), (ex_net ex_a0 ex_a1), ex_l. do 6 eexists. exists [0; 0; 0; 1]%nat, [0; 0; 0; 0]%nat. eexists. exists (mem_ex 0xc0000010).
  split; [|split; [|split; [intros []; [exists 0x80000|exists 0xc00|exists 0x80000000000]; reflexivity|]]].
  - eapply (ex_up _ _ _ _ _ [Some (BMem false false, 12, 0); Some (BIo, 8, 0); None; None; None; None] [Some (BMem true true, 20, 0); None; None; None; None]);
      [bars|reflexivity|bars|bars|reflexivity|bars|right; exists 11; split; [lia|reflexivity]|vm_compute; reflexivity|vm_compute; reflexivity|intros []; reflexivity].
  - left. reflexivity.
  - split.
    { cbn [tidy]. repeat split; intros H p o I; cbn [In] in I; try (destruct H as (p' & c & H); cbn [In] in H; repeat (destruct H as [H|H]; [discriminate H|]); destruct H);
        repeat (destruct I as [I|I]; [injection I as <- <-; reflexivity|]); destruct I. }
    split; [reflexivity|]. split; [reflexivity|]. split; [cbn; left; reflexivity|]. split; [split; [reflexivity|split; [vm_compute; discriminate|reflexivity]]|].
    split; [intros p a I; cbn in I; destruct I as [I|[I|[I|[]]]]; injection I as <- <-; (split; [reflexivity|]); intros _; left; reflexivity|].
    split; [vm_compute; discriminate|]. split; [vm_compute; reflexivity|]. split; [reflexivity|]. split; [discriminate|]. split; vm_compute; reflexivity.
Qed.

Print Assumptions C60_paths.
Print Assumptions C60_ids.
Print Assumptions C60_address_partial.
Print Assumptions C60_sibling_refuted.
