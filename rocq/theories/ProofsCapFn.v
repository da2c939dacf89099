(** The capabilities of a function: invariants along every sequence of operations. *)
From Coq Require Import Permutation Sorting.Sorted.
From Verif Require Import Base BaseProofs ModelUtils ModelAttrs ModelCaps ModelCapList ModelConfig ModelFunction
  SpecRegs SpecCapList SpecCapFn ProofsRegs ProofsCaps ProofsCapList.

Definition pos_ok (c d : cap) : Prop := c_off d = c_off c /\ c_next d = c_next c /\ c_len d = c_len c.
Lemma pos_off c d : pos_ok c d -> off d = off c.
Proof. intros (H & _). unfold off. rewrite H. reflexivity. Qed.
Lemma chained_pos h h' l : (forall j, In j l -> pos_ok (h j) (h' j)) -> chained h l -> chained h' l.
Proof.
  induction l as [|i l IH]; intros E C; [exact C|]. destruct (E i (or_introl eq_refl)) as (O & N & _).
  destruct l as [|k l]; cbn in *; [rewrite N; exact C|]. destruct C as [C1 C2]. split.
  - rewrite N, (pos_off _ _ (E k (or_intror (or_introl eq_refl)))). exact C1.
  - apply IH; [intros; apply E; right; assumption|exact C2].
Qed.
Lemma disjoint_pos h h' l : (forall j, In j l -> pos_ok (h j) (h' j)) -> disjoint h l -> disjoint h' l.
Proof.
  intros E D i j Hi Hj IJ. specialize (D i j Hi Hj IJ). unfold apart in *.
  destruct (E i Hi) as (O & _ & L), (E j Hj) as (O' & _ & L'). unfold off in *. rewrite O, O', L, L'. exact D.
Qed.

Record linv (h : heap) (l : list nat) (ext : bool) : Prop := {
  li_nodup : NoDup l;
  li_ext : forall i, In i l -> is_ext (c_kind (h i)) = ext;
  li_sorted : StronglySorted (le_off h) l;
  li_some : forall i, In i l -> c_off (h i) <> None;
  li_chain : (2 <= length l)%nat -> chained h l }.
(** The heap keeps the class, ID, version and length of all objects. *)
Definition hinv (h0 h : heap) : Prop := forall i, c_kind (h i) = c_kind (h0 i) /\ c_id (h i) = c_id (h0 i) /\
  c_ver (h i) = c_ver (h0 i) /\ c_len (h i) = c_len (h0 i).

Lemma linv_pos h h' l ext : linv h l ext -> (forall j, In j l -> pos_ok (h j) (h' j)) ->
  (forall j, In j l -> c_kind (h' j) = c_kind (h j)) -> linv h' l ext.
Proof.
  intros [A B C D E] P K. constructor.
  - exact A.
  - intros i Hi. rewrite K by exact Hi. apply B. exact Hi.
  - apply (sorted_off h); [intros i Hi; apply pos_off, P, Hi|exact C].
  - intros i Hi. destruct (P i Hi) as (O & _). rewrite O. apply D. exact Hi.
  - intros L. apply (chained_pos h); [exact P|apply E; exact L].
Qed.
Lemma linv_register start i o h l ext : linv h l ext -> is_ext (c_kind (h i)) = ext ->
  linv (fst (register start i o h l)) (snd (register start i o h l)) ext.
Proof.
  intros [A B C D E] K. destruct (register_ok start i o h l A) as [R1 R2 R3 R4 R5 R6 R7 R8 R9 R10]. constructor.
  - eapply Permutation_NoDup; [symmetry; exact R1|]. constructor; [|apply remove1_nodup; exact A].
    rewrite remove1_in by exact A. tauto.
  - intros j J. destruct (R3 j) as (KJ & _). rewrite KJ. apply (Permutation_in _ R1) in J. destruct J as [<-|J]; [exact K|].
    apply B. apply remove1_in in J; tauto.
  - exact R2.
  - intros j J. apply R9; [exact J|]. apply (Permutation_in _ R1) in J. destruct J as [<-|J]; [right; reflexivity|].
    left. apply D. apply remove1_in in J; tauto.
  - intros L. apply R5. left. intros X. rewrite X in R1. apply Permutation_length in R1. cbn in R1. lia.
Qed.
Lemma deregister_built i h l : NoDup l -> built h (remove1 i l) (fst (deregister i h l)) (snd (deregister i h l)).
Proof. intros N. apply build_built. apply remove1_nodup. exact N. Qed.
Lemma linv_deregister i h l ext : linv h l ext ->
  linv (fst (deregister i h l)) (snd (deregister i h l)) ext.
Proof.
  intros [A B C D E]. destruct (deregister_built i h l A) as [B1 B2 B3 B4 B5].
  assert (M : forall j, In j (snd (deregister i h l)) -> In j l).
  { intros j J. apply (Permutation_in _ B1) in J. apply remove1_in in J; tauto. }
  constructor.
  - eapply Permutation_NoDup; [symmetry; exact B1|]. apply remove1_nodup. exact A.
  - intros j J. destruct (B3 j) as (KJ & _). rewrite KJ. apply B, M, J.
  - exact B2.
  - intros j J. destruct (B3 j) as (_ & _ & _ & _ & O & _). rewrite O. apply D, M, J.
  - intros L. apply B5. left. rewrite <- (Permutation_length B1). exact L.
Qed.

(** ** Configuration writes *)
Definition wr_keeps (wr : Z -> Z -> Z -> fnc -> fnc) : Prop := forall reg data mask f,
  f_caps (wr reg data mask f) = f_caps f /\ f_ecaps (wr reg data mask f) = f_ecaps f /\
  f_attr (wr reg data mask f) fn_capabilities_ptr = f_attr f fn_capabilities_ptr /\
  forall j, pos_ok (f_heap f j) (f_heap (wr reg data mask f) j) /\
    c_kind (f_heap (wr reg data mask f) j) = c_kind (f_heap f j) /\
    c_id (f_heap (wr reg data mask f) j) = c_id (f_heap f j) /\ c_ver (f_heap (wr reg data mask f) j) = c_ver (f_heap f j).
Lemma caps_write_pos reg data mask l h j : pos_ok (h j) (caps_write reg data mask l h j) /\
  c_kind (caps_write reg data mask l h j) = c_kind (h j) /\
  c_id (caps_write reg data mask l h j) = c_id (h j) /\ c_ver (caps_write reg data mask l h j) = c_ver (h j).
Proof.
  unfold caps_write. destruct (find_by_reg h l reg) as [i|]; [|repeat split].
  unfold hset. destruct (Nat.eqb_spec j i) as [->|]; repeat split.
Qed.
Ltac keep_attr :=
  repeat first [ reflexivity
    | rewrite aset_ne by (cbv; discriminate)
    | rewrite aclear_ne by (cbv; discriminate)
    | apply when_eq | etransitivity; [apply when_eq|]; [keep_attr|] ].
Ltac wr_plain := split; [reflexivity|]; split; [reflexivity|]; split;
  [cbn [with_attr f_attr]; keep_attr | intros j; repeat split].
Lemma fn_write_keeps : wr_keeps fn_write.
Proof.
  intros reg data mask f. unfold fn_write.
  destruct (reg =? 1); [wr_plain|]. destruct (reg =? 3); [wr_plain|]. destruct (reg =? 15); [wr_plain|].
  destruct ((0x10 <=? reg) && (reg <? 0x40)).
  { split; [reflexivity|]. split; [reflexivity|]. split; [reflexivity|]. intros j. apply caps_write_pos. }
  destruct ((0x40 <=? reg) && (reg <? 0x400)).
  { split; [reflexivity|]. split; [reflexivity|]. split; [reflexivity|]. intros j. apply caps_write_pos. }
  repeat split.
Qed.
Lemma ep_write_keeps : wr_keeps ep_write.
Proof.
  intros reg data mask f. unfold ep_write.
  repeat match goal with |- context [if reg =? ?k then _ else _] => destruct (reg =? k); [wr_plain|] end.
  apply fn_write_keeps.
Qed.
Lemma br_write_keeps : wr_keeps br_write.
Proof.
  intros reg data mask f. unfold br_write. destruct (Z.eqb_spec reg 4) as [->|_].
  { cbn [Z.eqb Pos.eqb]. pose proof (fn_write_keeps 4 data mask (with_attr (aset (fn_bar 0)
      (byte_mask_update (f_attr f (fn_bar 0)) mask data (f_attr f (fn_bar_mask 0)))) f)) as K.
    exact K. }
  repeat match goal with |- context [if reg =? ?k then _ else _] => destruct (reg =? k); [wr_plain|] end.
  apply fn_write_keeps.
Qed.

Lemma spaces_keep rd wr : In (rd, wr) spaces -> wr_keeps wr.
Proof.
  intros [E|[E|[E|[]]]]; injection E as <- <-; [exact fn_write_keeps|exact ep_write_keeps|exact br_write_keeps].
Qed.

Record finv (f0 f : fnc) : Prop := {
  fi_heap : hinv (f_heap f0) (f_heap f);
  fi_list : forall ext, linv (f_heap f) (caps_of ext f) ext }.
Definition op_typed (f0 : fnc) (op : fop) : Prop :=
  match op with FReg i _ => is_ext (c_kind (f_heap f0 i)) = false | _ => True end.

(** What an operation does, seen from one of the two lists. *)
Definition view (ext : bool) (op : fop) (f f' : fnc) : Prop :=
  match ext, op with
  | false, FReg i o | true, FRegX i o =>
    f_heap f' = fst (register (caps_start ext) i o (f_heap f) (caps_of ext f)) /\
    caps_of ext f' = snd (register (caps_start ext) i o (f_heap f) (caps_of ext f)) /\
    is_ext (c_kind (f_heap f i)) = ext
  | false, FDereg i | true, FDeregX i =>
    f_heap f' = fst (deregister i (f_heap f) (caps_of ext f)) /\
    caps_of ext f' = snd (deregister i (f_heap f) (caps_of ext f))
  | _, _ =>
    caps_of ext f' = caps_of ext f /\
    (forall j, In j (caps_of ext f) \/ is_ext (c_kind (f_heap f j)) = ext -> pos_ok (f_heap f j) (f_heap f' j) /\
       c_kind (f_heap f' j) = c_kind (f_heap f j)) /\
    (ext = false -> f_attr f' fn_capabilities_ptr = f_attr f fn_capabilities_ptr)
  end.
Lemma hinv_same0 h0 h h' : hinv h0 h -> (forall j, same0 (h j) (h' j)) -> hinv h0 h'.
Proof.
  intros H S1 i. specialize (H i). destruct (S1 i) as (A & B & C & D & _). rewrite A, B, C, D. exact H.
Qed.
Lemma pos_refl c : pos_ok c c. Proof. repeat split. Qed.

Lemma reg_fst start i o h l : exists h' l', register start i o h l = (h', l').
Proof. destruct (register start i o h l) as [h' l']. eauto. Qed.
Lemma fstep_view rd wr f0 op f f' ext : In (rd, wr) spaces -> finv f0 f -> op_typed f0 op ->
  fstep wr op f = Ok f' -> view ext op f f'.
Proof.
  intros W [FH FL] T E. pose proof (FL true) as LT. pose proof (FL false) as LF. cbn [caps_of] in LT, LF.
  destruct op as [i o|i|i o|i|reg d m]; cbn [fstep] in E.
  - apply Ok_inj in E. subst f'. unfold fn_register_capability.
    cbn in T. destruct (FH i) as (KI & _). rewrite <- KI in T.
    pose proof (register_ok (caps_start false) i o (f_heap f) (f_caps f) (li_nodup _ _ _ LF)) as R.
    destruct ext; cbn [view caps_of];
      destruct (register (caps_start false) i o (f_heap f) (f_caps f)) as [h' l'] eqn:ER; cbn [fst snd] in *.
    + cbn. split; [reflexivity|]. split; [|discriminate]. intros j J.
      rewrite (r_out _ _ _ _ _ _ _ R); [split; [apply pos_refl|reflexivity]|].
      intros [<-|Y]; [destruct J as [J|J]; [apply (li_ext _ _ _ LT) in J|]; congruence|].
      apply (li_ext _ _ _ LF) in Y. destruct J as [J|J]; [apply (li_ext _ _ _ LT) in J|]; congruence.
    + cbn. split; [reflexivity|]. split; [reflexivity|exact T].
  - apply Ok_inj in E. subst f'. unfold fn_deregister_capability.
    pose proof (deregister_built i (f_heap f) (f_caps f) (li_nodup _ _ _ LF)) as R.
    destruct ext; cbn [view caps_of];
      destruct (deregister i (f_heap f) (f_caps f)) as [h' l'] eqn:ER; cbn [fst snd] in *.
    + cbn. split; [reflexivity|]. split; [|discriminate]. intros j J.
      rewrite (b_out _ _ _ _ R); [split; [apply pos_refl|reflexivity]|].
      intros Y. apply remove1_in in Y; [|exact (li_nodup _ _ _ LF)]. destruct Y as [Y _]. apply (li_ext _ _ _ LF) in Y.
      destruct J as [J|J]; [apply (li_ext _ _ _ LT) in J|]; congruence.
    + cbn. split; reflexivity.
  - unfold fn_register_extended_capability in E. destruct (is_ext (c_kind (f_heap f i))) eqn:T1; [|discriminate].
    pose proof (register_ok (caps_start true) i o (f_heap f) (f_ecaps f) (li_nodup _ _ _ LT)) as R.
    destruct (register (caps_start true) i o (f_heap f) (f_ecaps f)) as [h' l'] eqn:ER. apply Ok_inj in E. subst f'.
    destruct ext; cbn [view caps_of]; rewrite ?ER; cbn [fst snd] in *.
    + cbn. split; [reflexivity|]. split; [reflexivity|exact T1].
    + cbn. split; [reflexivity|]. split; [|reflexivity]. intros j J.
      rewrite (r_out _ _ _ _ _ _ _ R); [split; [apply pos_refl|reflexivity]|].
      intros [<-|Y]; [destruct J as [J|J]; [apply (li_ext _ _ _ LF) in J|]; congruence|].
      apply (li_ext _ _ _ LT) in Y. destruct J as [J|J]; [apply (li_ext _ _ _ LF) in J|]; congruence.
  - apply Ok_inj in E. subst f'. unfold fn_deregister_extended_capability.
    pose proof (deregister_built i (f_heap f) (f_ecaps f) (li_nodup _ _ _ LT)) as R.
    destruct ext; cbn [view caps_of];
      destruct (deregister i (f_heap f) (f_ecaps f)) as [h' l'] eqn:ER; cbn [fst snd] in *.
    + cbn. split; reflexivity.
    + cbn. split; [reflexivity|]. split; [|reflexivity]. intros j J.
      rewrite (b_out _ _ _ _ R); [split; [apply pos_refl|reflexivity]|].
      intros Y. apply remove1_in in Y; [|exact (li_nodup _ _ _ LT)]. destruct Y as [Y _]. apply (li_ext _ _ _ LT) in Y.
      destruct J as [J|J]; [apply (li_ext _ _ _ LF) in J|]; congruence.
  - apply Ok_inj in E. subst f'. destruct (spaces_keep _ _ W reg d m f) as (A & B & C & D).
    assert (V : caps_of ext (wr reg d m f) = caps_of ext f) by (destruct ext; assumption).
    destruct ext; cbn [view]; (split; [exact V|]; split; [|intros; assumption || discriminate]);
      intros j _; destruct (D j) as (D1 & D2 & _); split; assumption.
Qed.

Lemma fstep_heap rd wr f0 op f f' : In (rd, wr) spaces -> finv f0 f -> fstep wr op f = Ok f' -> hinv (f_heap f0) (f_heap f').
Proof.
  intros W [FH FL] E. pose proof (li_nodup _ _ _ (FL true)) as LT. pose proof (li_nodup _ _ _ (FL false)) as LF.
  cbn [caps_of] in LT, LF. destruct op as [i o|i|i o|i|reg d m]; cbn [fstep] in E.
  - apply Ok_inj in E. subst f'. unfold fn_register_capability.
    pose proof (register_ok (caps_start false) i o (f_heap f) (f_caps f) LF) as R.
    destruct (register (caps_start false) i o (f_heap f) (f_caps f)) as [h' l']. cbn in *.
    eapply hinv_same0; [exact FH|]. exact (r_same0 _ _ _ _ _ _ _ R).
  - apply Ok_inj in E. subst f'. unfold fn_deregister_capability.
    pose proof (deregister_built i (f_heap f) (f_caps f) LF) as R.
    destruct (deregister i (f_heap f) (f_caps f)) as [h' l']. cbn in *.
    eapply hinv_same0; [exact FH|]. intros j. apply same_same0. exact (b_same _ _ _ _ R j).
  - unfold fn_register_extended_capability in E. destruct (is_ext (c_kind (f_heap f i))); [|discriminate].
    pose proof (register_ok (caps_start true) i o (f_heap f) (f_ecaps f) LT) as R.
    destruct (register (caps_start true) i o (f_heap f) (f_ecaps f)) as [h' l']. apply Ok_inj in E. subst f'. cbn in *.
    eapply hinv_same0; [exact FH|]. exact (r_same0 _ _ _ _ _ _ _ R).
  - apply Ok_inj in E. subst f'. unfold fn_deregister_extended_capability.
    pose proof (deregister_built i (f_heap f) (f_ecaps f) LT) as R.
    destruct (deregister i (f_heap f) (f_ecaps f)) as [h' l']. cbn in *.
    eapply hinv_same0; [exact FH|]. intros j. apply same_same0. exact (b_same _ _ _ _ R j).
  - apply Ok_inj in E. subst f'. destruct (spaces_keep _ _ W reg d m f) as (_ & _ & _ & D). intros j.
    destruct (D j) as ((_ & _ & D1) & D2 & D3 & D4). destruct (FH j) as (A & B & C & L). rewrite D1, D2, D3, D4. auto.
Qed.
Lemma fstep_inv rd wr f0 op f f' : In (rd, wr) spaces -> finv f0 f -> op_typed f0 op -> fstep wr op f = Ok f' -> finv f0 f'.
Proof.
  intros W FI T E. constructor; [eapply fstep_heap; eassumption|]. intros ext.
  pose proof (fstep_view _ _ _ _ _ _ ext W FI T E) as V. pose proof (fi_list _ _ FI ext) as L.
  destruct ext, op as [i o|i|i o|i|reg d m]; cbn [view] in V; destruct V as [V1 V2];
    try (rewrite V1; apply (linv_pos (f_heap f)); [exact L|intros j J; apply V2; left; exact J..]).
  - destruct V2 as [V2 V3]. rewrite V1, V2. apply linv_register; assumption.
  - rewrite V1, V2. apply linv_deregister. exact L.
  - destruct V2 as [V2 V3]. rewrite V1, V2. apply linv_register; assumption.
  - rewrite V1, V2. apply linv_deregister. exact L.
Qed.
Lemma fresh_inv f : fresh f -> finv f f.
Proof.
  intros (A & B & _). constructor; [intros i; repeat split|].
  intros [|]; cbn [caps_of]; rewrite ?A, ?B; (constructor; [constructor|intros i []|constructor|intros i []|intros; exact Logic.I]).
Qed.

(** Induction over sequences of operations. *)
Lemma frun_ind rd wr f0 (P : list fop -> fnc -> Prop) : In (rd, wr) spaces -> fresh f0 -> P [] f0 ->
  (forall ops op f f', P ops f -> finv f0 f -> op_typed f0 op -> fstep wr op f = Ok f' -> P (ops ++ [op]) f') ->
  forall ops f, typed f0 ops -> frun wr ops f0 = Ok f -> P ops f /\ finv f0 f.
Proof.
  intros W Fr P0 PS.
  assert (G : forall ops pre f f', typed f0 ops -> P pre f -> finv f0 f -> frun wr ops f = Ok f' -> P (pre ++ ops) f' /\ finv f0 f').
  { induction ops as [|op ops IH]; intros pre f f' T Hp FI E.
    - cbn in E. apply Ok_inj in E. subst f'. rewrite app_nil_r. split; assumption.
    - cbn in E. destruct (fstep wr op f) as [f1|] eqn:E1; [|discriminate]. cbn in E.
      assert (T1 : op_typed f0 op) by (destruct op; cbn; auto; eapply T; left; reflexivity).
      replace (pre ++ op :: ops) with ((pre ++ [op]) ++ ops) by (rewrite <- app_assoc; reflexivity).
      apply (IH _ f1); [intros i o X; eapply T; right; exact X|eapply PS; eassumption|eapply fstep_inv; eassumption|exact E]. }
  intros ops f T E. apply (G ops [] f0 f); [exact T|exact P0|apply fresh_inv; exact Fr|exact E].
Qed.

(** ** The theorems *)
Lemma listed_snoc ext ops op i : listed ext (ops ++ [op]) i = listed1 ext i (listed ext ops i) op.
Proof. unfold listed. rewrite fold_left_app. reflexivity. Qed.
Lemma caps_members rd wr f0 ops f ext : In (rd, wr) spaces -> fresh f0 -> typed f0 ops -> frun wr ops f0 = Ok f ->
  NoDup (caps_of ext f) /\ forall i, In i (caps_of ext f) <-> listed ext ops i = true.
Proof.
  intros W Fr T E.
  destruct (frun_ind rd wr f0 (fun ops f => forall i, In i (caps_of ext f) <-> listed ext ops i = true) W Fr) with (ops := ops) (f := f)
    as (M & FI); auto.
  - destruct Fr as (A & B & _). intros i. destruct ext; cbn; rewrite ?A, ?B; cbn; intuition congruence.
  - clear -W. intros ops op f f' IH FI T E i. rewrite listed_snoc.
    pose proof (fstep_view _ _ _ _ _ _ ext W FI T E) as V. pose proof (li_nodup _ _ _ (fi_list _ _ FI ext)) as N.
    assert (R : forall k o h l, NoDup l -> In i (snd (register (caps_start ext) k o h l)) <-> i = k \/ In i l).
    { intros k o h l Nl. pose proof (r_perm _ _ _ _ _ _ _ (register_ok (caps_start ext) k o h l Nl)) as P. split; intros X.
      - apply (Permutation_in _ P) in X. destruct X as [X|X]; [left; congruence|]. apply remove1_in in X; tauto.
      - apply (Permutation_in _ (Permutation_sym P)). destruct (Nat.eq_dec k i) as [->|Y]; [left; reflexivity|].
        right. apply remove1_in; [exact Nl|]. split; [|congruence]. destruct X as [X|X]; [congruence|exact X]. }
    assert (D : forall k h l, NoDup l -> In i (snd (deregister k h l)) <-> In i l /\ i <> k).
    { intros k h l Nl. pose proof (b_perm _ _ _ _ (deregister_built k h l Nl)) as P. rewrite <- remove1_in by exact Nl.
      split; apply Permutation_in; [exact P|symmetry; exact P]. }
    destruct ext, op as [k o|k|k o|k|reg d m]; cbn [view] in V; destruct V as [V1 V2]; cbn [listed1];
      try (rewrite V1; apply IH);
      try (destruct V2 as [V2 _]; rewrite V2, R by exact N; rewrite IH; destruct (Nat.eqb_spec k i); intuition congruence);
      (rewrite V2, D by exact N; rewrite IH; destruct (Nat.eqb_spec k i); intuition congruence).
  - split; [exact (li_nodup _ _ _ (fi_list _ _ FI ext))|exact M].
Qed.

Lemma caps_sorted rd wr f0 ops f ext : In (rd, wr) spaces -> fresh f0 -> typed f0 ops -> frun wr ops f0 = Ok f ->
  StronglySorted (fun i j => off (f_heap f i) <= off (f_heap f j)) (caps_of ext f).
Proof.
  intros W Fr T E. destruct (frun_ind rd wr f0 (fun _ _ => True) W Fr Logic.I (fun _ _ _ _ _ _ _ _ => Logic.I) ops f T E) as (_ & FI).
  exact (li_sorted _ _ _ (fi_list _ _ FI ext)).
Qed.
Lemma caps_chained rd wr f0 ops f ext : In (rd, wr) spaces -> fresh f0 -> typed f0 ops -> frun wr ops f0 = Ok f ->
  (2 <= length (caps_of ext f))%nat -> chained (f_heap f) (caps_of ext f).
Proof.
  intros W Fr T E. destruct (frun_ind rd wr f0 (fun _ _ => True) W Fr Logic.I (fun _ _ _ _ _ _ _ _ => Logic.I) ops f T E) as (_ & FI).
  exact (li_chain _ _ _ (fi_list _ _ FI ext)).
Qed.
Lemma not_existsb_snoc {A} (p : A -> bool) l x : existsb p (l ++ [x]) = false -> existsb p l = false /\ p x = false.
Proof. rewrite existsb_app. cbn. rewrite orb_false_r. apply orb_false_iff. Qed.
(** Without deregistrations, also a single capability is linked right, and the capabilities pointer is. *)
Definition head_ptr (f : fnc) : Z := match f_caps f with i :: _ => off (f_heap f i) * 4 | [] => 0 end.
Lemma caps_no_dereg rd wr f0 ops f ext : In (rd, wr) spaces -> fresh f0 -> typed f0 ops -> frun wr ops f0 = Ok f ->
  existsb (is_dereg ext) ops = false ->
  chained (f_heap f) (caps_of ext f) /\ (ext = false -> f_attr f fn_capabilities_ptr = head_ptr f).
Proof.
  intros W Fr T E ND.
  destruct (frun_ind rd wr f0 (fun ops f => existsb (is_dereg ext) ops = false ->
    (forall j, is_ext (c_kind (f_heap f j)) = ext -> ~ In j (caps_of ext f) -> c_next (f_heap f j) = 0) /\
    chained (f_heap f) (caps_of ext f) /\ (ext = false -> f_attr f fn_capabilities_ptr = head_ptr f)) W Fr) with (ops := ops) (f := f)
    as (M & FI); auto.
  - destruct Fr as (A & B & C & D). intros _. split; [intros j _ _; apply D|]. split.
    + destruct ext; cbn; rewrite ?A, ?B; exact Logic.I.
    + intros _. rewrite C. unfold head_ptr. rewrite A. reflexivity.
  - clear -W. intros ops op f f' IH FI T E ND. apply not_existsb_snoc in ND. destruct ND as [ND1 ND2].
    destruct (IH ND1) as (I1 & I2 & I3). clear IH.
    pose proof (fstep_view _ _ _ _ _ _ ext W FI T E) as V. pose proof (fi_list _ _ FI ext) as L.
    assert (RR : forall i o, f_heap f' = fst (register (caps_start ext) i o (f_heap f) (caps_of ext f)) ->
      caps_of ext f' = snd (register (caps_start ext) i o (f_heap f) (caps_of ext f)) ->
      is_ext (c_kind (f_heap f i)) = ext ->
      (forall j, is_ext (c_kind (f_heap f' j)) = ext -> ~ In j (caps_of ext f') -> c_next (f_heap f' j) = 0) /\
      chained (f_heap f') (caps_of ext f')).
    { intros i o V1 V2 V3.
      pose proof (register_ok (caps_start ext) i o (f_heap f) (caps_of ext f) (li_nodup _ _ _ L)) as R.
      rewrite <- V1, <- V2 in R. destruct R as [R1 R2 R3 R4 R5 _ _ _ _ _]. split.
      - intros j J1 J2. assert (J3 : ~ In j (i :: caps_of ext f)).
        { intros X. apply J2. apply (Permutation_in _ (Permutation_sym R1)). destruct X as [X|X]; [left; exact X|].
          destruct (Nat.eq_dec i j) as [Y|Y]; [left; exact Y|]. right. apply remove1_in; [exact (li_nodup _ _ _ L)|]. split; congruence. }
        rewrite R4 by exact J3. apply I1; [|intros X; apply J3; right; exact X].
        destruct (R3 j) as (K & _). rewrite <- K. exact J1.
      - apply R5. destruct (remove1 i (caps_of ext f)) as [|k r] eqn:EQ; [|left; discriminate]. right.
        destruct (in_dec Nat.eq_dec i (caps_of ext f)) as [X|X]; [|apply I1; assumption].
        destruct (caps_of ext f) as [|a l]; [destruct X|]. cbn in EQ. destruct (Nat.eqb_spec a i) as [->|Y]; [|discriminate].
        subst l. exact I2. }
    assert (KK : caps_of ext f' = caps_of ext f /\
      (forall j, In j (caps_of ext f) \/ is_ext (c_kind (f_heap f j)) = ext -> pos_ok (f_heap f j) (f_heap f' j) /\
         c_kind (f_heap f' j) = c_kind (f_heap f j)) /\
      (ext = false -> f_attr f' fn_capabilities_ptr = f_attr f fn_capabilities_ptr) ->
      (forall j, is_ext (c_kind (f_heap f' j)) = ext -> c_kind (f_heap f' j) = c_kind (f_heap f j)) ->
      (forall j, is_ext (c_kind (f_heap f' j)) = ext -> ~ In j (caps_of ext f') -> c_next (f_heap f' j) = 0) /\
      chained (f_heap f') (caps_of ext f') /\ (ext = false -> f_attr f' fn_capabilities_ptr = head_ptr f')).
    { intros (K1 & K2 & K3) K4. rewrite K1. split; [|split].
      - intros j J1 J2. assert (J3 : is_ext (c_kind (f_heap f j)) = ext) by (rewrite <- (K4 j J1); exact J1).
        destruct (K2 j (or_intror J3)) as ((_ & N & _) & _). rewrite N. apply I1; assumption.
      - apply (chained_pos (f_heap f)); [|exact I2]. intros j J. apply K2. left. exact J.
      - intros X. rewrite (K3 X), (I3 X). unfold head_ptr. subst ext. cbn [caps_of] in *. rewrite K1.
        destruct (f_caps f) as [|k l] eqn:EL; [reflexivity|]. destruct (K2 k) as (P & _); [left; left; reflexivity|].
        rewrite (pos_off _ _ P). reflexivity. }
    assert (HK : forall j, is_ext (c_kind (f_heap f' j)) = ext -> c_kind (f_heap f' j) = c_kind (f_heap f j)).
    { intros j _. destruct (fstep_heap _ _ _ _ _ _ W FI E j) as (A & _). destruct (fi_heap _ _ FI j) as (B & _). congruence. }
    destruct ext, op as [k o|k|k o|k|reg d m]; cbn [view] in V; try discriminate ND2; try (apply KK; assumption).
    + destruct V as (V1 & V2 & V3). destruct (RR k o V1 V2 V3) as (A & B). split; [exact A|]. split; [exact B|discriminate].
    + destruct V as (V1 & V2 & V3). destruct (RR k o V1 V2 V3) as (A & B). split; [exact A|]. split; [exact B|]. intros _.
      cbn [fstep] in E. apply Ok_inj in E. subst f'. unfold fn_register_capability, head_ptr.
      destruct (register (caps_start false) k o (f_heap f) (f_caps f)) as [h' l']. cbn. destruct l'; reflexivity.
  - destruct (M ND) as (_ & X). exact X.
Qed.

(** ** Disjointness *)
Lemma fits_along_snoc ext wr ops : forall f op, fits_along ext wr (ops ++ [op]) f -> fits_along ext wr ops f /\
  forall f', frun wr ops f = Ok f' ->
    match ext, op with
    | false, FReg i o => register_fits (caps_start false) i o (f_heap f') (f_caps f')
    | true, FRegX i o => register_fits (caps_start true) i o (f_heap f') (f_ecaps f')
    | _, _ => True
    end.
Proof.
  induction ops as [|a ops IH]; intros f op H.
  - cbn in H. destruct H as [H _]. split; [exact Logic.I|]. intros f' E. cbn in E. apply Ok_inj in E. subst f'. exact H.
  - cbn [app fits_along] in *. destruct H as [H1 H2]. destruct (fstep wr a f) as [f1|] eqn:E1.
    + destruct (IH f1 op H2) as (A & B). split; [split; assumption|]. intros f' E. cbn in E. rewrite E1 in E. cbn in E. apply B. exact E.
    + split; [split; [exact H1|exact Logic.I]|]. intros f' E. cbn in E. rewrite E1 in E. discriminate.
Qed.
Lemma frun_snoc wr ops : forall f op, frun wr (ops ++ [op]) f = (f' <- frun wr ops f ;; fstep wr op f').
Proof.
  induction ops as [|a ops IH]; intros f op; cbn.
  - destruct (fstep wr op f); reflexivity.
  - destruct (fstep wr a f); [cbn; apply IH|reflexivity].
Qed.
Lemma caps_disjoint rd wr f0 ops f ext : In (rd, wr) spaces -> fresh f0 -> typed f0 ops -> frun wr ops f0 = Ok f ->
  fits_along ext wr ops f0 -> disjoint (f_heap f) (caps_of ext f).
Proof.
  intros W Fr T E FA.
  destruct (frun_ind rd wr f0 (fun ops f => frun wr ops f0 = Ok f /\ (fits_along ext wr ops f0 -> disjoint (f_heap f) (caps_of ext f))) W Fr)
    with (ops := ops) (f := f) as (M & FI); auto.
  - split; [reflexivity|]. destruct Fr as (A & B & _). intros _ i j Hi. destruct ext; cbn in Hi; rewrite ?A, ?B in Hi; destruct Hi.
  - clear -W Fr. intros ops op f f' [IR IH] FI T E. split; [rewrite frun_snoc, IR; exact E|]. intros FA.
    apply fits_along_snoc in FA. destruct FA as [FA FO]. specialize (IH FA). specialize (FO f IR).
    pose proof (fstep_view _ _ _ _ _ _ ext W FI T E) as V. pose proof (fi_list _ _ FI ext) as L.
    assert (LP : forall j, 0 < c_len (f_heap f j)).
    { intros j. destruct (fi_heap _ _ FI j) as (_ & _ & _ & X). rewrite X. destruct Fr as (_ & _ & _ & D). apply D. }
    assert (DD : forall i, disjoint (fst (deregister i (f_heap f) (caps_of ext f))) (snd (deregister i (f_heap f) (caps_of ext f)))).
    { intros i. destruct (deregister_built i (f_heap f) (caps_of ext f) (li_nodup _ _ _ L)) as [B1 B2 B3 B4 B5].
      apply (disjoint_same (f_heap f)); [intros; apply B3|]. apply (disjoint_sub _ (caps_of ext f)); [|exact IH].
      intros x X. apply (Permutation_in _ B1) in X. apply remove1_in in X; [tauto|exact (li_nodup _ _ _ L)]. }
    destruct ext, op as [k o|k|k o|k|reg d m]; cbn [view] in V;
      try (destruct V as (V1 & V2 & _); rewrite V1; apply (disjoint_pos (f_heap f)); [intros j J; apply V2; left; exact J|exact IH]);
      try (destruct V as (V1 & V2); rewrite V1, V2; apply DD);
      (destruct V as (V1 & V2 & V3); rewrite V1, V2;
       apply (r_dis _ _ _ _ _ _ _ (register_ok _ _ _ _ _ (li_nodup _ _ _ L))); [exact LP|exact (li_sorted _ _ _ L)|exact IH|exact FO]).
  - apply M. exact FA.
Qed.

(** ** Registrations without offset leave no gaps *)
Lemma fits_along_intro ext wr ops : forall f op f', frun wr ops f = Ok f' -> fits_along ext wr ops f ->
  match ext, op with
  | false, FReg i o => register_fits (caps_start false) i o (f_heap f') (f_caps f')
  | true, FRegX i o => register_fits (caps_start true) i o (f_heap f') (f_ecaps f')
  | _, _ => True
  end -> fits_along ext wr (ops ++ [op]) f.
Proof.
  induction ops as [|a ops IH]; intros f op f' E FA H.
  - cbn in E. apply Ok_inj in E. subst f'. cbn. split; [exact H|]. destruct (fstep wr op f); exact Logic.I.
  - cbn [app fits_along frun] in *. destruct FA as [A B]. split; [exact A|]. destruct (fstep wr a f) as [f1|]; [|exact Logic.I].
    apply (IH f1 op f'); assumption.
Qed.
Record packed (start : Z) (h : heap) (l : list nat) (e : Z) : Prop := {
  pk_start : start <= e;
  pk_in : forall j, In j l -> start <= off (h j) /\ ends_at h j <= e;
  pk_cover : forall p, start <= p < e -> exists j, In j l /\ off (h j) <= p < ends_at h j }.
Lemma packed_auto start h l e len : packed start h l e -> StronglySorted (le_off h) l -> 2 <= len ->
  auto_off h len l start = e.
Proof.
  intros [P1 P2 P3] S1 L. set (F := auto_off h len l start).
  assert (F <= e).
  { apply auto_first; [exact P1|]. intros i Hi. left. apply P2. exact Hi. }
  destruct (Z.eq_dec F e) as [|NE]; [assumption|]. exfalso.
  destruct (P3 F) as (j & J1 & J2); [split; [apply auto_ge|lia]|].
  destruct (auto_free h len l start S1 j J1) as [X|X]; fold F in X; lia.
Qed.
Lemma packed_pos start h h' l l' e : packed start h l e -> (forall j, In j l' <-> In j l) ->
  (forall j, In j l -> off (h' j) = off (h j) /\ c_len (h' j) = c_len (h j)) -> packed start h' l' e.
Proof.
  intros [P1 P2 P3] M E. constructor; [exact P1| |].
  - intros j J. apply M in J. destruct (E j J) as [O L]. unfold ends_at. rewrite O, L. apply P2. exact J.
  - intros p Hp. destruct (P3 p Hp) as (j & J1 & J2). exists j. split; [apply M; exact J1|].
    destruct (E j J1) as [O L]. unfold ends_at. rewrite O, L. exact J2.
Qed.
Lemma pos_dims c d : pos_ok c d -> off d = off c /\ c_len d = c_len c.
Proof. intros H. split; [apply pos_off; exact H|apply H]. Qed.

Lemma auto_only_fits rd wr f0 ops f ext : In (rd, wr) spaces -> fresh f0 -> (forall i, 2 <= c_len (f_heap f0 i)) ->
  typed f0 ops -> frun wr ops f0 = Ok f -> auto_only ext ops ->
  fits_along ext wr ops f0 /\ exists e, packed (caps_start ext) (f_heap f) (caps_of ext f) e.
Proof.
  intros W Fr L2 T E AO.
  destruct (frun_ind rd wr f0 (fun ops f => frun wr ops f0 = Ok f /\ (auto_only ext ops -> fits_along ext wr ops f0 /\
    (forall j, is_ext (c_kind (f_heap f j)) = ext -> ~ In j (caps_of ext f) -> c_off (f_heap f j) = None) /\
    disjoint (f_heap f) (caps_of ext f) /\
    exists e, packed (caps_start ext) (f_heap f) (caps_of ext f) e)) W Fr)
    with (ops := ops) (f := f) as (M & FI); auto.
  - destruct Fr as (A & B & C & D). split; [reflexivity|]. intros _. split; [exact Logic.I|]. split; [intros j _ _; apply D|].
    assert (N : caps_of ext f0 = []) by (destruct ext; assumption). rewrite N.
    split; [intros i j []|]. exists (caps_start ext). constructor; [lia|intros j []|intros p Hp; lia].
  - clear -W Fr L2. intros ops op f f' [IR IH] FI T E. split; [rewrite frun_snoc, IR; exact E|]. intros [A1 A2].
    apply not_existsb_snoc in A2. destruct A2 as [A2 A3].
    destruct IH as (I1 & I2 & I3 & e & I4).
    { split; [|exact A2]. intros i o X. eapply A1. apply in_or_app. left. exact X. }
    pose proof (fstep_view _ _ _ _ _ _ ext W FI T E) as V. pose proof (fi_list _ _ FI ext) as L.
    pose proof (li_nodup _ _ _ L) as N.
    assert (LP : forall j, 2 <= c_len (f_heap f j)).
    { intros j. destruct (fi_heap _ _ FI j) as (_ & _ & _ & X). rewrite X. apply L2. }
    assert (HK : forall j, c_kind (f_heap f' j) = c_kind (f_heap f j)).
    { intros j. destruct (fstep_heap _ _ _ _ _ _ W FI E j) as (A & _). destruct (fi_heap _ _ FI j) as (B & _). congruence. }
    assert (RR : forall i, f_heap f' = fst (register (caps_start ext) i None (f_heap f) (caps_of ext f)) ->
      caps_of ext f' = snd (register (caps_start ext) i None (f_heap f) (caps_of ext f)) ->
      is_ext (c_kind (f_heap f i)) = ext ->
      register_fits (caps_start ext) i None (f_heap f) (caps_of ext f) /\
      (forall j, is_ext (c_kind (f_heap f' j)) = ext -> ~ In j (caps_of ext f') -> c_off (f_heap f' j) = None) /\
      disjoint (f_heap f') (caps_of ext f') /\
      exists e, packed (caps_start ext) (f_heap f') (caps_of ext f') e).
    { intros i V1 V2 V3.
      pose proof (register_ok (caps_start ext) i None (f_heap f) (caps_of ext f) N) as R. rewrite <- V1, <- V2 in R.
      destruct R as [R1 R2 R3 R4 R5 R6 R7 R8 R9 R10]. cbn [set_req] in *.
      assert (MEM : forall j, In j (caps_of ext f') <-> j = i \/ In j (caps_of ext f)).
      { intros j. split; intros X.
        - apply (Permutation_in _ R1) in X. destruct X as [X|X]; [left; congruence|]. apply remove1_in in X; tauto.
        - apply (Permutation_in _ (Permutation_sym R1)). destruct (Nat.eq_dec i j) as [->|Y]; [left; reflexivity|].
          right. apply remove1_in; [exact N|]. split; [|congruence]. destruct X as [X|X]; [congruence|exact X]. }
      assert (RF : register_fits (caps_start ext) i None (f_heap f) (caps_of ext f) /\
        exists e, packed (caps_start ext) (f_heap f') (caps_of ext f') e).
      { destruct (in_dec Nat.eq_dec i (caps_of ext f)) as [IN|IN].
        - assert (X : explicit (f_heap f i) = true).
          { pose proof (li_some _ _ _ L i IN) as SO. pose proof (pk_in _ _ _ _ I4 i IN) as [B _]. unfold explicit, off in *.
            destruct (c_off (f_heap f i)) as [o|]; [|congruence]. assert (16 <= caps_start ext) by (destruct ext; cbn; lia). lia. }
          assert (OV : forall j, In j (remove1 i (caps_of ext f)) -> overlaps (f_heap f i) (f_heap f j) = false).
          { intros j J. apply remove1_in in J; [|exact N]. destruct J as [J1 J2].
            pose proof (LP i). pose proof (LP j). destruct (I3 i j IN J1) as [Y|Y]; [congruence|unfold overlaps; lia|unfold overlaps; lia]. }
          split.
          + unfold register_fits. cbv zeta. fold (explicit (f_heap f i)). rewrite X.
            assert (B0 : filter (fun j => overlaps (f_heap f i) (f_heap f j)) (remove1 i (caps_of ext f)) = []).
            { clear -OV. induction (remove1 i (caps_of ext f)) as [|k r IH]; [reflexivity|]. cbn. rewrite OV by (left; reflexivity).
              apply IH. intros j J. apply OV. right. exact J. }
            rewrite B0. destruct (build _ _). exact Logic.I.
          + exists e. apply (packed_pos _ (f_heap f) _ (caps_of ext f)); [exact I4|intros j; rewrite MEM; intuition congruence|].
            intros j J. rewrite (same0_len _ _ (R3 j)). split; [|reflexivity]. destruct (Nat.eq_dec j i) as [->|Y].
            * unfold off. rewrite (R6 X). reflexivity.
            * apply same_off. apply R8; [apply remove1_in; [exact N|split; assumption]|]. right. apply OV.
              apply remove1_in; [exact N|split; assumption].
        - assert (X : explicit (f_heap f i) = false).
          { unfold explicit. rewrite (I2 i V3 IN). reflexivity. }
          rewrite (remove1_out _ _ IN) in *.
          pose proof (packed_auto _ _ _ _ (c_len (f_heap f i)) I4 (li_sorted _ _ _ L) (LP i)) as PA.
          split.
          + unfold register_fits. cbv zeta. fold (explicit (f_heap f i)). rewrite X, remove1_out by exact IN.
            intros j J. rewrite PA. destruct (pk_in _ _ _ _ I4 j J) as [_ B]. unfold ends_at in B.
            pose proof (LP i). pose proof (LP j). lia.
          + exists (e + c_len (f_heap f i)). pose proof (LP i).
            assert (OI : off (f_heap f' i) = e) by (unfold off; rewrite (R7 X), PA; reflexivity).
            assert (OJ : forall j, In j (caps_of ext f) -> off (f_heap f' j) = off (f_heap f j)).
            { intros j J. apply same_off. apply R8; [exact J|left; exact X]. }
            pose proof (pk_start _ _ _ _ I4).
            constructor.
            * lia.
            * intros j J. apply MEM in J. unfold ends_at. rewrite (same0_len _ _ (R3 j)). destruct J as [->|J].
              { rewrite OI. lia. }
              rewrite OJ by exact J. destruct (pk_in _ _ _ _ I4 j J) as [B1 B2]. unfold ends_at in B2. lia.
            * intros p Hp. destruct (Z.ltb_spec p e) as [LT|GE].
              { destruct (pk_cover _ _ _ _ I4 p ltac:(lia)) as (j & J1 & J2). exists j. split; [apply MEM; right; exact J1|].
                unfold ends_at in *. rewrite (same0_len _ _ (R3 j)), OJ by exact J1. exact J2. }
              exists i. split; [apply MEM; left; reflexivity|]. unfold ends_at. rewrite (same0_len _ _ (R3 i)), OI. lia. }
      destruct RF as [RF1 RF2]. split; [exact RF1|]. split; [|split; [|exact RF2]].
      - intros j J1 J2. assert (J3 : ~ In j (i :: caps_of ext f)).
        { intros Y. apply J2. apply MEM. destruct Y as [Y|Y]; [left; congruence|right; exact Y]. }
        rewrite R4 by exact J3. apply I2; [rewrite <- HK; exact J1|]. intros Y. apply J3. right. exact Y.
      - apply R10; [intros j; pose proof (LP j); lia|exact (li_sorted _ _ _ L)|exact I3|exact RF1]. }
    assert (KK : caps_of ext f' = caps_of ext f /\
      (forall j, In j (caps_of ext f) \/ is_ext (c_kind (f_heap f j)) = ext -> pos_ok (f_heap f j) (f_heap f' j) /\
         c_kind (f_heap f' j) = c_kind (f_heap f j)) /\
      (ext = false -> f_attr f' fn_capabilities_ptr = f_attr f fn_capabilities_ptr) ->
      (forall j, is_ext (c_kind (f_heap f' j)) = ext -> ~ In j (caps_of ext f') -> c_off (f_heap f' j) = None) /\
      disjoint (f_heap f') (caps_of ext f') /\
      exists e, packed (caps_start ext) (f_heap f') (caps_of ext f') e).
    { intros (K1 & K2 & _). rewrite K1. split; [|split].
      - intros j J1 J2. rewrite HK in J1. destruct (K2 j (or_intror J1)) as ((O & _) & _). rewrite O. apply I2; assumption.
      - apply (disjoint_pos (f_heap f)); [intros j J; apply K2; left; exact J|exact I3].
      - exists e. apply (packed_pos _ (f_heap f) _ (caps_of ext f)); [exact I4|tauto|].
        intros j J. apply pos_dims. apply K2. left. exact J. }
    destruct ext, op as [k o|k|k o|k|reg d m]; cbn [view] in V; try discriminate A3;
      try (split; [apply (fits_along_intro _ _ _ _ _ f); [exact IR|exact I1|exact Logic.I]|apply KK; exact V]).
    + destruct V as (V1 & V2 & V3). assert (O : o = None) by (eapply A1; apply in_or_app; right; left; reflexivity). subst o.
      destruct (RR k V1 V2 V3) as (R1 & R2). split; [|exact R2]. apply (fits_along_intro _ _ _ _ _ f); [exact IR|exact I1|exact R1].
    + destruct V as (V1 & V2 & V3). assert (O : o = None) by (eapply A1; apply in_or_app; right; left; reflexivity). subst o.
      destruct (RR k V1 V2 V3) as (R1 & R2). split; [|exact R2]. apply (fits_along_intro _ _ _ _ _ f); [exact IR|exact I1|exact R1].
  - apply M in AO. destruct AO as (A & _ & _ & B). split; assumption.
Qed.
Lemma caps_static rd wr f0 ops f i : In (rd, wr) spaces -> fresh f0 -> typed f0 ops -> frun wr ops f0 = Ok f ->
  c_kind (f_heap f i) = c_kind (f_heap f0 i) /\ c_id (f_heap f i) = c_id (f_heap f0 i) /\
  c_ver (f_heap f i) = c_ver (f_heap f0 i) /\ c_len (f_heap f i) = c_len (f_heap f0 i).
Proof.
  intros W Fr T E. destruct (frun_ind rd wr f0 (fun _ _ => True) W Fr Logic.I (fun _ _ _ _ _ _ _ _ => Logic.I) ops f T E) as (_ & FI).
  exact (fi_heap _ _ FI i).
Qed.
