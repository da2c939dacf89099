(** The capability lists (C25). *)
From Coq Require Import Sorting.Sorted.
From Verif Require Import Base ModelUtils ModelAttrs ModelCaps ModelCapList ModelConfig ModelFunction
  SpecRegs SpecCapList SpecCapFn ProofsCapList ProofsCapFn ProofsCapWalk.

(** [f] results from the operations [ops] on the function [f0], of one of the three kinds. *)
Definition history rd wr f0 ops f : Prop :=
  In (rd, wr) spaces /\ fresh f0 /\ typed f0 ops /\ frun wr ops f0 = Ok f.

(** A function with objects of all classes of the library, for the examples. *)
Definition fn0 : fnc := mkFn endpoint_init
  (fun i => nth i [pcie_cap_new; pm_cap_new; msi_cap_new; msix_cap_new; aer_cap_new; pcie_ext_cap_new] pm_cap_new) [] [] (mkId 0 0 0).
(** The same with user classes of one register. *)
Definition fn1 : fnc := mkFn endpoint_init
  (fun i => mkCap (KUser false (fun _ _ => Some 0) (fun _ _ _ s => s)) (Z.of_nat i) 0 1 None 0 pmc_init) [] [] (mkId 0 0 0).
Lemma fn0_fresh : fresh fn0.
Proof.
  split; [reflexivity|]. split; [reflexivity|]. split; [reflexivity|].
  intros i. do 6 (destruct i as [|i]; [cbn; repeat split; lia|]). destruct i; cbn; repeat split; lia.
Qed.
Lemma fn1_fresh : fresh fn1.
Proof. repeat split. Qed.
Definition ops0 : list fop :=
  [FReg 2 None; FReg 0 (Some 0x1c); FWrite 1 0x7 0xf; FReg 1 (Some 0x17); FReg 3 None; FRegX 4 None; FRegX 5 (Some 0x60)].
Lemma ops0_typed f0 : (forall i, (i < 4)%nat -> is_ext (c_kind (f_heap f0 i)) = false) -> typed f0 ops0.
Proof.
  intros H i o X. cbn in X. repeat (destruct X as [X|X]; [try discriminate X; injection X as <- <-; apply H; lia|]). destruct X.
Qed.
Definition get (r : res fnc) : fnc := match r with Ok f => f | Err _ => fn0 end.
Lemma get_ok r : match r with Ok _ => true | Err _ => false end = true -> r = Ok (get r).
Proof. destruct r; [reflexivity|discriminate]. Qed.
Definition f_ops0 : fnc := get (frun ep_write ops0 fn0).
Example fn0_history : history ep_read ep_write fn0 ops0 f_ops0.
Proof.
  split; [right; left; reflexivity|]. split; [exact fn0_fresh|]. split.
  - apply ops0_typed. intros i H. do 4 (destruct i as [|i]; [reflexivity|]). lia.
  - apply get_ok. vm_compute. reflexivity.
Qed.

(** The list holds exactly the registered capabilities, each once, in ascending order of offset. *)
Theorem C25_members : forall rd wr f0 ops f ext, history rd wr f0 ops f ->
  NoDup (caps_of ext f) /\ (forall i, In i (caps_of ext f) <-> listed ext ops i = true) /\
  StronglySorted (fun i j => off (f_heap f i) <= off (f_heap f j)) (caps_of ext f).
Proof.
  intros rd wr f0 ops f ext (W & F & T & E). destruct (caps_members _ _ _ _ _ ext W F T E). split; [assumption|].
  split; [assumption|exact (caps_sorted _ _ _ _ _ ext W F T E)].
Qed.
Example C25_members_ex : f_caps f_ops0 = [2; 1; 3; 0]%nat /\ f_ecaps f_ops0 = [4; 5]%nat /\
  map (fun i => off (f_heap f_ops0 i)) (f_caps f_ops0) = [0x10; 0x17; 0x19; 0x1c].
Proof. vm_compute. auto. Qed.

(** The next pointers of a list of at least two capabilities are right.  Missing from the full statement: a single
    capability that is left after deregistrations, for which it is false. *)
Theorem C25_chain_partial : forall rd wr f0 ops f ext, history rd wr f0 ops f ->
  (2 <= length (caps_of ext f))%nat -> chained (f_heap f) (caps_of ext f).
Proof. intros rd wr f0 ops f ext (W & F & T & E). exact (caps_chained _ _ _ _ _ ext W F T E). Qed.
(** Without deregistrations, all next pointers and the capabilities pointer are right. *)
Theorem C25_chain_register : forall rd wr f0 ops f ext, history rd wr f0 ops f -> existsb (is_dereg ext) ops = false ->
  chained (f_heap f) (caps_of ext f) /\ (ext = false -> f_attr f fn_capabilities_ptr = head_ptr f).
Proof. intros rd wr f0 ops f ext (W & F & T & E). exact (caps_no_dereg _ _ _ _ _ ext W F T E). Qed.
Example C25_chain_ex : existsb (is_dereg false) ops0 = false /\ f_attr f_ops0 fn_capabilities_ptr = 0x40 /\
  map (fun i => c_next (f_heap f_ops0 i)) (f_caps f_ops0) = [0x5c; 0x64; 0x70; 0].
Proof. vm_compute. auto. Qed.

(** Ranges are disjoint, unless an automatically chosen one was one register too short (in the full statement,
    without [fits_along], this is false). *)
Theorem C25_disjoint_partial : forall rd wr f0 ops f ext, history rd wr f0 ops f -> fits_along ext wr ops f0 ->
  disjoint (f_heap f) (caps_of ext f) /\
  StronglySorted (fun i j => off (f_heap f i) + c_len (f_heap f i) <= off (f_heap f j)) (caps_of ext f).
Proof.
  intros rd wr f0 ops f ext (W & F & T & E) FA.
  exact (conj (caps_disjoint _ _ _ _ _ ext W F T E FA) (caps_ascending _ _ _ _ _ ext W F T E FA)).
Qed.
Example C25_disjoint_ex : fits_along false ep_write ops0 fn0 /\ fits_along true ep_write ops0 fn0.
Proof. split; apply fits_alongb_ok; vm_compute; reflexivity. Qed.
(** The automatic choice is the first range that is free, or one whose last register is the first one of another
    capability. *)
Theorem C25_first_fit : forall h l len start, StronglySorted (fun i j => off (h i) <= off (h j)) l ->
  let o := auto_off h len l start in
  start <= o /\
  (forall p, start <= p -> (forall i, In i l -> off (h i) + c_len (h i) <= p \/ p + len <= off (h i)) -> o <= p) /\
  (forall i, In i l -> off (h i) + c_len (h i) <= o \/ o + len <= off (h i) \/ off (h i) = o + len - 1).
Proof.
  intros h l len start H. split; [apply auto_ge|]. split; [apply auto_first|].
  intros i Hi. destruct (auto_free h len l start H i Hi) as [X|X]; [left; exact X|]. cbv zeta. lia.
Qed.
Example C25_first_fit_ex : auto_off (f_heap f_ops0) 3 (f_caps f_ops0) 0x10 = 0x2b /\ auto_off (f_heap f_ops0) 2 (f_caps f_ops0) 0x10 = 0x16.
Proof. vm_compute. auto. Qed.

(** Accesses to a register in the range of a capability are its own. *)
Theorem C25_owner_partial : forall rd wr f0 ops f ext i r, history rd wr f0 ops f -> fits_along ext wr ops f0 ->
  In i (caps_of ext f) -> 0 <= r < c_len (f_heap f i) ->
  (if ext then 64 <= off (f_heap f i) + r < 1024 else 16 <= off (f_heap f i) + r < 64) ->
  rd f (off (f_heap f i) + r) = cap_read (f_heap f i) r /\
  forall data mask, wr (off (f_heap f i) + r) data mask f = with_heap (hset i (cap_write r data mask (f_heap f i))) f.
Proof. intros rd wr f0 ops f ext i r (W & F & T & E). exact (caps_owner _ _ _ _ _ ext i r W F T E). Qed.
Example C25_owner_ex : ep_read f_ops0 0x1a = cap_read (f_heap f_ops0 3%nat) 1 /\ ep_read f_ops0 0x19 = Ok (Some 0x7011).
Proof. vm_compute. auto. Qed.

(** Software that follows the pointers finds all capabilities, in order.  Missing from the full statement:
    deregistrations, ranges chosen too short, and capabilities beyond the space for them. *)
Theorem C25_walk_partial : forall rd wr f0 ops f, history rd wr f0 ops f -> (forall i, headed (f_heap f0 i)) ->
  existsb (is_dereg false) ops = false -> fits_along false wr ops f0 ->
  (forall i, In i (f_caps f) -> 16 <= off (f_heap f i) < 64) ->
  walk_caps (S (length (f_caps f))) (rd f) = Some (map (fun i => off (f_heap f i)) (f_caps f)).
Proof. intros rd wr f0 ops f (W & F & T & E) H. exact (caps_walk _ _ _ _ _ W F H T E). Qed.
Theorem C25_walk_ext_partial : forall rd wr f0 ops f, history rd wr f0 ops f ->
  (forall i, c_id (f_heap f0 i) mod 65536 <> 0) -> existsb (is_dereg true) ops = false -> fits_along true wr ops f0 ->
  (forall i, hd_error (f_ecaps f) = Some i -> off (f_heap f i) = 64) ->
  (forall i, In i (f_ecaps f) -> off (f_heap f i) < 1024) ->
  walk_ext (S (length (f_ecaps f))) (rd f) = Some (map (fun i => off (f_heap f i)) (f_ecaps f)).
Proof. intros rd wr f0 ops f (W & F & T & E) H. exact (caps_walk_ext _ _ _ _ _ W F H T E). Qed.
Example C25_walk_ex : walk_caps 5 (ep_read f_ops0) = Some [0x10; 0x17; 0x19; 0x1c] /\
  walk_ext 3 (ep_read f_ops0) = Some [0x40; 0x60].
Proof. vm_compute. auto. Qed.

(** Registrations without offset of capabilities of at least two registers, as all of the library are: the
    capabilities follow one another without gap and are disjoint, and software finds them all, as long as they
    fit into the space. *)
Theorem C25_auto : forall rd wr f0 ops f ext, history rd wr f0 ops f -> (forall i, 2 <= c_len (f_heap f0 i)) ->
  auto_only ext ops ->
  let l := caps_of ext f in let o := fun i => off (f_heap f i) in let lens := map (fun i => c_len (f_heap f i)) l in
  disjoint (f_heap f) l /\ map o l = positions (caps_start ext) lens /\
  forall i, In i l -> caps_start ext <= o i < caps_start ext + total lens.
Proof. intros rd wr f0 ops f ext (W & F & T & E) H. exact (caps_auto _ _ _ _ _ ext W F H T E). Qed.
Theorem C25_auto_walk : forall rd wr f0 ops f, history rd wr f0 ops f ->
  (forall i, 2 <= c_len (f_heap f0 i) /\ headed (f_heap f0 i)) -> auto_only false ops ->
  let lens := map (fun i => c_len (f_heap f i)) (f_caps f) in total lens <= 48 ->
  walk_caps (S (length (f_caps f))) (rd f) = Some (positions 16 lens).
Proof. intros rd wr f0 ops f (W & F & T & E) H. exact (caps_auto_walk _ _ _ _ _ W F H T E). Qed.
Theorem C25_auto_walk_ext : forall rd wr f0 ops f, history rd wr f0 ops f ->
  (forall i, 2 <= c_len (f_heap f0 i) /\ c_id (f_heap f0 i) mod 65536 <> 0) -> auto_only true ops ->
  let lens := map (fun i => c_len (f_heap f i)) (f_ecaps f) in total lens <= 960 ->
  walk_ext (S (length (f_ecaps f))) (rd f) = Some (positions 64 lens).
Proof. intros rd wr f0 ops f (W & F & T & E) H. exact (caps_auto_walk_ext _ _ _ _ _ W F H T E). Qed.
Definition ops1 : list fop := [FReg 0 None; FRegX 5 None; FReg 3 None; FWrite 0x11 0x27 0xf; FReg 1 None; FReg 3 None; FRegX 4 None; FReg 2 None].
Definition f_ops1 : fnc := get (frun br_write ops1 fn0).
Example C25_auto_ex : frun br_write ops1 fn0 = Ok f_ops1 /\ auto_only false ops1 /\ auto_only true ops1 /\ typed fn0 ops1 /\
  (forall i, 2 <= c_len (f_heap fn0 i) /\ headed (f_heap fn0 i) /\ c_id (f_heap fn0 i) mod 65536 <> 0) /\
  walk_caps 5 (br_read f_ops1) = Some [0x10; 0x1f; 0x22; 0x24] /\ walk_ext 3 (br_read f_ops1) = Some [0x40; 0x44].
Proof.
  split; [apply get_ok; vm_compute; reflexivity|].
  split; [split; [intros i o X; cbn in X; repeat (destruct X as [X|X]; [try discriminate X; injection X as _ <-; reflexivity|]); destruct X|reflexivity]|].
  split; [split; [intros i o X; cbn in X; repeat (destruct X as [X|X]; [try discriminate X; injection X as _ <-; reflexivity|]); destruct X|reflexivity]|].
  split; [intros i o X; cbn in X; repeat (destruct X as [X|X]; [try discriminate X; injection X as <- <-; reflexivity|]); destruct X|].
  split; [|vm_compute; auto].
  intros i. split; [|split].
  - do 6 (destruct i as [|i]; [cbn; lia|]). destruct i; cbn; lia.
  - apply builtin_headed. do 6 (destruct i as [|i]; [exact Logic.I|]). destruct i; exact Logic.I.
  - do 6 (destruct i as [|i]; [cbn; lia|]). destruct i; cbn; lia.
Qed.

(** Ranges can overlap: two capabilities of one register are put into the same register; and a capability is put
    into a gap one register too short. *)
Theorem C25_disjoint_refuted :
  (exists ops f, history fn_read fn_write fn1 ops f /\ auto_only false ops /\ ~ disjoint (f_heap f) (f_caps f)) /\
  (exists ops f, history fn_read fn_write fn0 ops f /\ ~ disjoint (f_heap f) (f_caps f)).
Proof.
  split.
  - exists [FReg 0 None; FReg 1 None], (get (frun fn_write [FReg 0 None; FReg 1 None] fn1)).
    split; [split; [left; reflexivity|split; [exact fn1_fresh|split; [intros i o _; reflexivity|apply get_ok; vm_compute; reflexivity]]]|].
    split; [split; [intros i o X; cbn in X; repeat (destruct X as [X|X]; [injection X as _ <-; reflexivity|]); destruct X|reflexivity]|].
    intros D. destruct (D 0%nat 1%nat) as [A|A]; [vm_compute; auto|vm_compute; auto|discriminate| |]; vm_compute in A; apply A; reflexivity.
  - exists [FReg 1 (Some 0x12); FReg 3 None], (get (frun fn_write [FReg 1 (Some 0x12); FReg 3 None] fn0)).
    split; [split; [left; reflexivity|split; [exact fn0_fresh|split; [|apply get_ok; vm_compute; reflexivity]]]|].
    + intros i o X. cbn in X. repeat (destruct X as [X|X]; [injection X as <- _; reflexivity|]). destruct X.
    + intros D. destruct (D 1%nat 3%nat) as [A|A]; [vm_compute; auto|vm_compute; auto|discriminate| |]; vm_compute in A; apply A; reflexivity.
Qed.
(** Deregistration: a single remaining capability keeps its next pointer, and the capabilities pointer is not updated. *)
Theorem C25_walk_refuted :
  (exists ops f, history ep_read ep_write fn0 ops f /\ fits_along false ep_write ops fn0 /\ ~ chained (f_heap f) (f_caps f) /\
     map (fun i => off (f_heap f i)) (f_caps f) = [0x20] /\ walk_caps 3 (ep_read f) <> Some [0x20]) /\
  (exists ops f, history ep_read ep_write fn0 ops f /\ fits_along false ep_write ops fn0 /\ chained (f_heap f) (f_caps f) /\
     map (fun i => off (f_heap f i)) (f_caps f) = [0x30] /\ walk_caps 9 (ep_read f) = Some [0x20]).
Proof.
  split.
  - exists [FReg 1 (Some 0x20); FReg 3 (Some 0x30); FDereg 3], (get (frun ep_write [FReg 1 (Some 0x20); FReg 3 (Some 0x30); FDereg 3] fn0)).
    split; [split; [right; left; reflexivity|split; [exact fn0_fresh|split; [|apply get_ok; vm_compute; reflexivity]]]|].
    + intros i o X. cbn in X. repeat (destruct X as [X|X]; [try discriminate X; injection X as <- _; reflexivity|]). destruct X.
    + split; [apply fits_alongb_ok; vm_compute; reflexivity|]. split; [intros C; vm_compute in C; discriminate|]. split; [vm_compute; reflexivity|vm_compute; discriminate].
  - exists [FReg 1 (Some 0x20); FReg 3 (Some 0x30); FDereg 1], (get (frun ep_write [FReg 1 (Some 0x20); FReg 3 (Some 0x30); FDereg 1] fn0)).
    split; [split; [right; left; reflexivity|split; [exact fn0_fresh|split; [|apply get_ok; vm_compute; reflexivity]]]|].
    + intros i o X. cbn in X. repeat (destruct X as [X|X]; [try discriminate X; injection X as <- _; reflexivity|]). destruct X.
    + split; [apply fits_alongb_ok; vm_compute; reflexivity|]. split; [vm_compute; auto|]. vm_compute. auto.
Qed.
(** Nothing keeps capabilities within the space for them (registers 0x10 to 0x3f): here the next pointer cannot
    hold the position of the second capability. *)
Theorem C25_space_refuted : exists ops f, history ep_read ep_write fn0 ops f /\ fits_along false ep_write ops fn0 /\
  map (fun i => off (f_heap f i)) (f_caps f) = [0x10; 0x40] /\ walk_caps 9 (ep_read f) = Some [0x10].
Proof.
  exists [FReg 1 None; FReg 3 (Some 0x40)], (get (frun ep_write [FReg 1 None; FReg 3 (Some 0x40)] fn0)).
  split; [split; [right; left; reflexivity|split; [exact fn0_fresh|split; [|apply get_ok; vm_compute; reflexivity]]]|].
  - intros i o X. cbn in X. repeat (destruct X as [X|X]; [try discriminate X; injection X as <- _; reflexivity|]). destruct X.
  - split; [apply fits_alongb_ok; vm_compute; reflexivity|]. vm_compute. auto.
Qed.

Print Assumptions C25_members.
Print Assumptions C25_chain_partial.
Print Assumptions C25_chain_register.
Print Assumptions C25_disjoint_partial.
Print Assumptions C25_first_fit.
Print Assumptions C25_owner_partial.
Print Assumptions C25_walk_partial.
Print Assumptions C25_walk_ext_partial.
Print Assumptions C25_auto.
Print Assumptions C25_auto_walk.
Print Assumptions C25_auto_walk_ext.
Print Assumptions C25_disjoint_refuted.
Print Assumptions C25_walk_refuted.
Print Assumptions C25_space_refuted.
