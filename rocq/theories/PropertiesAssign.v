(** C33: after the assignment of addresses BARs are aligned, disjoint and in the windows of the bridges above. *)
From Verif Require Import Base BaseProofs ModelUtils ModelAttrs ModelConfig ModelEnum ModelAssign SpecAssign ProofsAssign ProofsAssignFacts.

(** Every implemented BAR and expansion ROM gets an address, a multiple of its size; those of one kind are pairwise disjoint, and they are
    in the range the host hands out: from the base [l] to the limit [l']. *)
Theorem C33_layout : forall b l t l', tree_ok b -> assign_bus b l = Ok (t, l') ->
  served b t /\ Forall aligned (flat_map allocs t) /\ ForallOrdPairs disjoint (flat_map allocs t) /\
  Forall (fun a => lim (a_kind a) l <= a_addr a /\ a_addr a + a_size a <= lim (a_kind a) l') (flat_map allocs t).
Proof. exact assign_layout. Qed.
(** The windows in the registers of every bridge contain the BARs of all functions below it, at any depth.  Missing from the full claim: only if what is handed out
    ends below 4 GiB (prefetchable memory: 2^64), see [C33_refuted]. *)
Theorem C33_contained_partial : forall b l t l', tree_ok b -> assign_bus b l = Ok (t, l') -> (forall k, 0 < lim k l) -> (forall k, lim k l' <= top k) ->
  Forall (fun '(r, below) => Forall (contains r) below) (flat_map bridges_of t).
Proof. exact assign_contained. Qed.
(** With what is written to its BAR a function answers to the addresses handed out and no others. *)
Theorem C33_answers : forall b l t l', tree_ok b -> assign_bus b l = Ok (t, l') -> (forall k, 0 <= lim k l) -> (forall k, lim k l' <= top k) ->
  Forall (fun a => forall x, answers a x <-> a_addr a <= x < a_addr a + a_size a) (flat_map allocs t).
Proof. exact assign_answers. Qed.
(** The assignment succeeds, and ends below the top, if there is space for twice the size of every BAR and a granule (4 KiB or 1 MiB) for every bridge. *)
Theorem C33_space : forall b l, tree_ok b -> (forall k, 0 < lim k l) -> (forall k, lim k l + need k b <= top k) ->
  exists t l', assign_bus b l = Ok (t, l') /\ forall k, lim k l <= lim k l' <= lim k l + need k b.
Proof. exact assign_room. Qed.
(** The windows pass nothing else, as long as bridges share their bus only with bridges, and have no BARs; see [C33_stray_refuted]. *)
Theorem C33_exclusive : forall b l t l', tree_ok b -> assign_bus b l = Ok (t, l') -> (forall k, 0 < lim k l) -> (forall k, lim k l' < top k) ->
  tidy b -> (forall k, (granule k | lim k l)) ->
  forall r below, In (r, below) (flat_map bridges_of t) ->
  exists pre post, flat_map allocs t = pre ++ below ++ post /\ Forall (fun a => ~ meets r a) (pre ++ post).
Proof. exact assign_exclusive. Qed.
(** What is written to the registers of a bridge arrives in the windows it routes by. *)
Theorem C33_bridge : forall b e r f, setup_bridge b e = Ok r -> whole f -> forall k, windows (program r f) k = window k r.
Proof. exact (fun b e r f H W => program_windows r f (setup_range b e r H) W). Qed.

(** ** Cases *)
Definition bases : lims := mkL 0x80000000 0xc0000000 0x8000000000000000.
Definition port (d : Z) : pfn := mkPf (mkId 0 d 0) 1 false None [(0, 0); (0, 0)] (0, 0).
Definition dev (bars : list (Z * Z)) (rom : Z * Z) : pfn := mkPf (mkId 0 0 0) 0 false None bars rom.
Definition zero : Z * Z := (0, 0).
(** Two ports; behind the first a 32 bit BAR of 16 MiB, an I/O BAR of 32 bytes, a 64 bit prefetchable one of 4 GiB and a ROM of 64 KiB, behind
    the second a bridge with a 64 bit BAR that is not prefetchable *)
Definition ex_tree : pbus := PBus 0 0 3
  [(port 1, Some (PBus 1 0 1 [(dev [(0, 0x1000000); (1, 32); (12, 0x100000000); zero; zero; zero] (0, 0x10000), None)]));
   (port 2, Some (PBus 2 0 3 [(port 0, Some (PBus 3 2 3 [(dev [zero; (4, 0x4000); zero; zero; (8, 0x1000); zero] zero, None)]))]))].
Definition ex_allocs : list (kind * Z * Z * list Z) :=
  match assign_bus ex_tree bases with Ok (t, _) => map (fun a => (a_kind a, a_addr a, a_size a, a_dws a)) (flat_map allocs t) | Err _ => [] end.
Example C33_ex : ex_allocs =
  [(Mem, 0xc0000000, 0x1000000, [0xc0000000]); (Io, 0x80000000, 32, [0x80000001]); (Pref, 0x8000000000000000, 0x100000000, [12; 0x80000000]);
   (Mem, 0xc1000000, 0x10000, [0xc1000000]); (Mem, 0xc1100000, 0x4000, [0xc1100004; 0]); (Mem, 0xc1104000, 0x1000, [0xc1104008])].
Proof. reflexivity. Qed.
Lemma size_pow low n : 0 <= n -> low <= n -> forall s, s = 2 ^ n -> size_ok low s.
Proof. intros Hn Hl s ->. right. exists n. auto. Qed.
Ltac sizes := repeat match goal with
  | |- _ /\ _ => split
  | |- True => exact Logic.I
  | |- size_ok _ 0 => left; reflexivity
  | |- size_ok _ ?s => let n := eval vm_compute in (Z.log2 s) in apply (size_pow _ n); [lia|lia|reflexivity]
  | |- _ -> _ => intros
  | |- 0 <= _ => lia
  end; try discriminate.
Example C33_tree_ok : tree_ok ex_tree.
Proof. cbn. unfold fn_ok. cbn. sizes. Qed.
Example C33_tidy : tidy ex_tree.
Proof.
  cbn. repeat split; auto; try (intros (p & c & H); cbn in H; intuition discriminate);
    intros _ p o H; cbn in H; repeat (destruct H as [H|H]; [injection H as <- <-; reflexivity|]); destruct H.
Qed.
Example C33_room : (forall k, 0 < lim k bases) /\ (forall k, lim k bases + need k ex_tree <= top k) /\ (forall k, (granule k | lim k bases)).
Proof. repeat split; intros []; try (vm_compute; congruence); [exists 0x80000|exists 0xc00|exists 0x80000000000]; reflexivity. Qed.
Example C33_windows : match assign_bus ex_tree bases with Ok (t, _) => map (fun b => (window Mem (fst b), length (snd b))) (flat_map bridges_of t) | Err _ => [] end =
  [((0xc0000000, 0xc10fffff), 4%nat); ((0xc1100000, 0xc11fffff), 2%nat); ((0xc1100000, 0xc11fffff), 2%nat)].
Proof. reflexivity. Qed.

(** ** What fails *)
(** Past 4 GiB: a 64 bit BAR of 2 GiB that is not prefetchable is put at 4 GiB, from the default bases; nothing is reported, and the window of the port above does not
    have it. *)
Definition big_tree : pbus := PBus 0 0 1 [(port 1, Some (PBus 1 0 1 [(dev [(4, 0x80000000); zero; zero; zero; zero; zero] zero, None)]))].
Theorem C33_refuted : exists b l t l' r below, tree_ok b /\ (forall k, 0 < lim k l) /\ assign_bus b l = Ok (t, l') /\
  In (r, below) (flat_map bridges_of t) /\ exists a, In a below /\ ~ contains r a.
Proof.
  exists big_tree, bases. eexists _, _, _, _.
  split. { cbn. unfold fn_ok. cbn. sizes. }
  split. { intros []; vm_compute; congruence. }
  split; [reflexivity|]. split; [left; reflexivity|].
  eexists. split; [left; reflexivity|]. vm_compute. intros [H1 H2]. apply H2. reflexivity.
Qed.
(** An endpoint on the bus of a port: the base of the port's window follows the endpoint's BAR, but only whole megabytes can be put in the register,
    so that the window covers the BAR of the endpoint as well. *)
Definition mixed_tree : pbus := PBus 0 0 1 [(dev [(0, 0x1000); zero; zero; zero; zero; zero] zero, None);
  (port 1, Some (PBus 1 0 1 [(dev [(0, 0x1000); zero; zero; zero; zero; zero] zero, None)]))].
Theorem C33_stray_refuted : exists b l t l' r below p own rest, tree_ok b /\ (forall k, 0 < lim k l) /\ assign_bus b l = Ok (t, l') /\ (forall k, lim k l' < top k) /\
  t = ADev p own None :: rest /\ In (r, below) (flat_map bridges_of rest) /\ exists a, In a own /\ contains r a.
Proof.
  exists mixed_tree, bases. eexists _, _, _, _, _, _, _.
  split. { cbn. unfold fn_ok. cbn. sizes. }
  split. { intros []; vm_compute; congruence. }
  split; [reflexivity|]. split. { intros []; reflexivity. } split; [reflexivity|]. split; [left; reflexivity|].
  eexists. split; [left; reflexivity|]. vm_compute. split; congruence.
Qed.

Print Assumptions C33_layout.
Print Assumptions C33_contained_partial.
Print Assumptions C33_answers.
Print Assumptions C33_space.
Print Assumptions C33_exclusive.
Print Assumptions C33_bridge.
Print Assumptions C33_refuted.
Print Assumptions C33_stray_refuted.
