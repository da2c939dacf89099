(** Walking the capability lists, and which capability answers a read. *)
From Coq Require Import Permutation Sorting.Sorted.
From Verif Require Import Base BaseProofs Bits ModelUtils ModelAttrs ModelCaps ModelCapList ModelConfig ModelFunction
  SpecRegs SpecCapList SpecCapFn ProofsRegs ProofsCaps ProofsCapList ProofsCapFn.

Lemma owner_find h l i r : disjoint h l -> In i l -> 0 <= r < c_len (h i) -> find_by_reg h l (off (h i) + r) = Some i.
Proof.
  intros D Hi Hr. unfold find_by_reg.
  destruct (find _ l) as [j|] eqn:E.
  - apply find_some in E. destruct E as [Hj E]. destruct (Nat.eq_dec j i) as [->|NE]; [reflexivity|]. exfalso.
    destruct (D j i Hj Hi NE); lia.
  - exfalso. pose proof (find_none _ _ E i Hi) as X. cbv beta in X. lia.
Qed.
Lemma owner_read h l i r : disjoint h l -> In i l -> 0 <= r < c_len (h i) ->
  caps_read h l (off (h i) + r) = cap_read (h i) r.
Proof.
  intros D Hi Hr. unfold caps_read. rewrite owner_find by assumption. f_equal. lia.
Qed.
Lemma owner_write h l i r data mask : disjoint h l -> In i l -> 0 <= r < c_len (h i) ->
  caps_write (off (h i) + r) data mask l h = hset i (cap_write r data mask (h i)) h.
Proof.
  intros D Hi Hr. unfold caps_write. rewrite owner_find by assumption. f_equal. f_equal. lia.
Qed.
Lemma space_read rd wr f reg : In (rd, wr) spaces ->
  (16 <= reg < 64 -> rd f reg = caps_read (f_heap f) (f_caps f) reg) /\
  (64 <= reg < 1024 -> rd f reg = caps_read (f_heap f) (f_ecaps f) reg).
Proof.
  intros W.
  assert (FR : (16 <= reg < 64 -> fn_read f reg = caps_read (f_heap f) (f_caps f) reg) /\
               (64 <= reg < 1024 -> fn_read f reg = caps_read (f_heap f) (f_ecaps f) reg)).
  { unfold fn_read. split; intros H.
    - replace (reg =? 0) with false by lia. replace (reg =? 1) with false by lia. replace (reg =? 2) with false by lia.
      replace (reg =? 3) with false by lia. replace (reg =? 13) with false by lia. replace (reg =? 15) with false by lia.
      replace ((0x10 <=? reg) && (reg <? 0x40)) with true by lia. reflexivity.
    - replace (reg =? 0) with false by lia. replace (reg =? 1) with false by lia. replace (reg =? 2) with false by lia.
      replace (reg =? 3) with false by lia. replace (reg =? 13) with false by lia. replace (reg =? 15) with false by lia.
      replace ((0x10 <=? reg) && (reg <? 0x40)) with false by lia. replace ((0x40 <=? reg) && (reg <? 0x400)) with true by lia.
      reflexivity. }
  destruct W as [E|[E|[E|[]]]]; injection E as <- <-; [exact FR| |].
  - assert (X : 16 <= reg -> ep_read f reg = fn_read f reg).
    { intros H. unfold ep_read.
      repeat match goal with |- context [if reg =? ?k then _ else _] => replace (reg =? k) with false by lia end. reflexivity. }
    split; intros H; rewrite X by lia; apply FR; exact H.
  - assert (X : 16 <= reg -> br_read f reg = fn_read f reg).
    { intros H. unfold br_read.
      repeat match goal with |- context [if reg =? ?k then _ else _] => replace (reg =? k) with false by lia end. reflexivity. }
    split; intros H; rewrite X by lia; apply FR; exact H.
Qed.
Lemma space_write rd wr f reg data mask : In (rd, wr) spaces ->
  (16 <= reg < 64 -> wr reg data mask f = with_heap (caps_write reg data mask (f_caps f)) f) /\
  (64 <= reg < 1024 -> wr reg data mask f = with_heap (caps_write reg data mask (f_ecaps f)) f).
Proof.
  intros W.
  assert (FR : (16 <= reg < 64 -> fn_write reg data mask f = with_heap (caps_write reg data mask (f_caps f)) f) /\
               (64 <= reg < 1024 -> fn_write reg data mask f = with_heap (caps_write reg data mask (f_ecaps f)) f)).
  { unfold fn_write. split; intros H.
    - replace (reg =? 1) with false by lia. replace (reg =? 3) with false by lia. replace (reg =? 15) with false by lia.
      replace ((0x10 <=? reg) && (reg <? 0x40)) with true by lia. reflexivity.
    - replace (reg =? 1) with false by lia. replace (reg =? 3) with false by lia. replace (reg =? 15) with false by lia.
      replace ((0x10 <=? reg) && (reg <? 0x40)) with false by lia. replace ((0x40 <=? reg) && (reg <? 0x400)) with true by lia.
      reflexivity. }
  destruct W as [E|[E|[E|[]]]]; injection E as <- <-; [exact FR| |].
  - assert (X : 16 <= reg -> ep_write reg data mask f = fn_write reg data mask f).
    { intros H. unfold ep_write.
      repeat match goal with |- context [if reg =? ?k then _ else _] => replace (reg =? k) with false by lia end. reflexivity. }
    split; intros H; rewrite X by lia; apply FR; exact H.
  - assert (X : 16 <= reg -> br_write reg data mask f = fn_write reg data mask f).
    { intros H. unfold br_write.
      repeat match goal with |- context [if reg =? ?k then _ else _] => replace (reg =? k) with false by lia end. reflexivity. }
    split; intros H; rewrite X by lia; apply FR; exact H.
Qed.

Lemma walk_chained read next h l : chained h l ->
  (forall i, In i l -> 0 < off (h i) /\ exists v, read (off (h i)) = Ok (Some v) /\ next v = c_next (h i)) ->
  walk (S (length l)) read next (match l with i :: _ => off (h i) * 4 | [] => 0 end) = Some (map (fun i => off (h i)) l).
Proof.
  induction l as [|i l IH]; intros C H; [reflexivity|].
  destruct (H i (or_introl eq_refl)) as (P & v & R & N).
  change (walk (S (length (i :: l))) read next (off (h i) * 4)) with
    (if off (h i) * 4 =? 0 then Some [] else
     match read (off (h i) * 4 / 4) with
     | Ok (Some v) => option_map (cons (off (h i) * 4 / 4)) (walk (S (length l)) read next (next v))
     | _ => None end).
  replace (off (h i) * 4 =? 0) with false by lia. rewrite Z.div_mul by lia. rewrite R, N.
  assert (C' : c_next (h i) = match l with j :: _ => off (h j) * 4 | [] => 0 end /\ chained h l).
  { destruct l as [|j l]; cbn in C; [split; [exact C|exact Logic.I]|exact C]. }
  destruct C' as [C1 C2]. rewrite C1, IH; [reflexivity|exact C2|]. intros j J. apply H. right. exact J.
Qed.
Lemma legacy_next v n i : 0 <= n < 256 ->
  next_legacy (Z.lor (Z.lor (Z.land v 0xffff0000) (Z.shiftl (Z.land n 0xff) 8)) (Z.land i 0xff)) = n.
Proof. intros H. unfold next_legacy. rewrite slice_land by lia. change (Z.ones 8) with 255. bits. Qed.
Lemma ext_next n v i : 0 <= n < 4096 ->
  next_ext (Z.lor (Z.lor (Z.shiftl (Z.land n 0xfff) 20) (Z.shiftl (Z.land v 0xf) 16)) (Z.land i 0xffff)) = n.
Proof. intros H. unfold next_ext. rewrite slice_land by lia. change (Z.ones 12) with 4095. bits. Qed.
Lemma chained_bound h l B : chained h l -> (forall i, In i l -> 0 <= off (h i) * 4 < B) -> 0 < B ->
  forall i, In i l -> 0 <= c_next (h i) < B.
Proof.
  induction l as [|k l IH]; intros C H PB i Hi; [destruct Hi|]. destruct l as [|j l].
  - destruct Hi as [<-|[]]. cbn in C. rewrite C. lia.
  - destruct C as [C1 C2]. destruct Hi as [<-|Hi]; [rewrite C1; apply H; right; left; reflexivity|].
    apply IH; [exact C2|intros; apply H; right; assumption|exact PB|exact Hi].
Qed.

Lemma walk_caps_ok rd wr f : In (rd, wr) spaces -> chained (f_heap f) (f_caps f) ->
  f_attr f fn_capabilities_ptr = head_ptr f -> disjoint (f_heap f) (f_caps f) ->
  (forall i, In i (f_caps f) -> 16 <= off (f_heap f i) < 64 /\ 0 < c_len (f_heap f i) /\
     is_ext (c_kind (f_heap f i)) = false /\ headed (f_heap f i)) ->
  walk_caps (S (length (f_caps f))) (rd f) = Some (map (fun i => off (f_heap f i)) (f_caps f)).
Proof.
  intros W C P D H.
  assert (B : forall i, In i (f_caps f) -> 0 <= c_next (f_heap f i) < 256).
  { apply chained_bound; [exact C|intros i Hi; specialize (H i Hi); lia|lia]. }
  assert (R : rd f 13 = Ok (Some (head_ptr f))).
  { assert (HB : 0 <= head_ptr f < 256).
    { unfold head_ptr. destruct (f_caps f) as [|i l]; [lia|]. specialize (H i (or_introl eq_refl)). lia. }
    assert (L : Z.land (head_ptr f) 0xff = head_ptr f) by (change 0xff with (Z.ones 8); apply Z.land_ones_low; [lia|];
      destruct (Z.eq_dec (head_ptr f) 0) as [->|]; [cbn; lia|apply Z.log2_lt_pow2; lia]).
    destruct W as [E|[E|[E|[]]]]; injection E as <- <-.
    - change (fn_read f 13) with (@Ok (option Z) (Some (Z.land (f_attr f fn_capabilities_ptr) 0xff))). rewrite P, L. reflexivity.
    - change (ep_read f 13) with (@Ok (option Z) (Some (Z.land (f_attr f fn_capabilities_ptr) 0xff))). rewrite P, L. reflexivity.
    - change (br_read f 13) with (@Ok (option Z) (Some (f_attr f fn_capabilities_ptr))). rewrite P. reflexivity. }
  unfold walk_caps. change (0x34 / 4) with 13. rewrite R. apply walk_chained; [exact C|].
  intros i Hi. destruct (H i Hi) as (H1 & H2 & H3 & H4). split; [lia|].
  rewrite (proj1 (space_read _ _ _ _ W) H1).
  assert (E : caps_read (f_heap f) (f_caps f) (off (f_heap f i)) = cap_read (f_heap f i) 0).
  { rewrite <- (owner_read (f_heap f) (f_caps f)) by (auto; lia). f_equal. lia. }
  rewrite E. unfold cap_read. rewrite H3. change (0 =? 0) with true. cbv iota.
  destruct H4 as [H4|H4]; [congruence|]. specialize (H4 (c_attr (f_heap f i))). destruct (kind_read (c_kind (f_heap f i)) (c_attr (f_heap f i)) 0) as [v|]; [|congruence].
  eexists. split; [reflexivity|]. apply legacy_next. apply B. exact Hi.
Qed.
Lemma walk_ext_ok rd wr f : In (rd, wr) spaces -> chained (f_heap f) (f_ecaps f) ->
  disjoint (f_heap f) (f_ecaps f) ->
  (forall i, hd_error (f_ecaps f) = Some i -> off (f_heap f i) = 64 /\ c_id (f_heap f i) mod 65536 <> 0) ->
  (forall i, In i (f_ecaps f) -> 64 <= off (f_heap f i) < 1024 /\ 0 < c_len (f_heap f i) /\
     is_ext (c_kind (f_heap f i)) = true) ->
  walk_ext (S (length (f_ecaps f))) (rd f) = Some (map (fun i => off (f_heap f i)) (f_ecaps f)).
Proof.
  intros W C D Hd H.
  assert (B : forall i, In i (f_ecaps f) -> 0 <= c_next (f_heap f i) < 4096).
  { apply chained_bound; [exact C|intros i Hi; specialize (H i Hi); lia|lia]. }
  assert (RD : forall i, In i (f_ecaps f) -> rd f (off (f_heap f i)) = Ok (Some (Z.lor (Z.lor (Z.shiftl (Z.land (c_next (f_heap f i)) 0xfff) 20)
     (Z.shiftl (Z.land (c_ver (f_heap f i)) 0xf) 16)) (Z.land (c_id (f_heap f i)) 0xffff)))).
  { intros i Hi. destruct (H i Hi) as (H1 & H2 & H3). rewrite (proj2 (space_read _ _ _ _ W) H1).
    assert (E : caps_read (f_heap f) (f_ecaps f) (off (f_heap f i)) = cap_read (f_heap f i) 0).
    { rewrite <- (owner_read (f_heap f) (f_ecaps f)) by (auto; lia). f_equal. lia. }
    rewrite E. unfold cap_read. rewrite H3. reflexivity. }
  assert (WK : walk (S (length (f_ecaps f))) (rd f) next_ext (match f_ecaps f with i :: _ => off (f_heap f i) * 4 | [] => 0 end) =
    Some (map (fun i => off (f_heap f i)) (f_ecaps f))).
  { apply walk_chained; [exact C|]. intros i Hi. destruct (H i Hi) as (H1 & _). split; [lia|].
    eexists. split; [apply RD; exact Hi|]. apply ext_next. apply B. exact Hi. }
  unfold walk_ext. change (0x100 / 4) with 64. destruct (f_ecaps f) as [|i l] eqn:EL.
  - rewrite (proj2 (space_read _ _ _ _ W)) by lia. rewrite EL. reflexivity.
  - destruct (Hd i eq_refl) as (O & ID). pose proof (RD i (or_introl eq_refl)) as R1. rewrite O in R1, WK.
    rewrite R1. set (v := Z.lor _ _) in *.
    assert (NZ : v <> 0).
    { intros Z0. apply ID. change 65536 with (2 ^ 16). rewrite <- Z.land_ones by lia. change (Z.ones 16) with 0xffff.
      assert (X : Z.land v 0xffff = Z.land (c_id (f_heap f i)) 0xffff) by (unfold v; bits).
      rewrite <- X, Z0. reflexivity. }
    destruct v as [|p|p]; [contradiction NZ; reflexivity|exact WK|exact WK].
Qed.

Lemma builtin_headed c : match c_kind c with KUser _ _ _ => False | _ => True end -> headed c.
Proof.
  intros H. unfold headed. destruct (c_kind c); try (left; reflexivity); try (right; intros; discriminate). destruct H.
Qed.

Lemma packed_positions h l : forall start e, packed start h l e -> StronglySorted (le_off h) l -> disjoint h l -> NoDup l ->
  (forall i, In i l -> 0 < c_len (h i)) ->
  map (fun i => off (h i)) l = positions start (map (fun i => c_len (h i)) l) /\ e = start + total (map (fun i => c_len (h i)) l).
Proof.
  induction l as [|i l IH]; intros start e P S1 D N L.
  - split; [reflexivity|]. destruct P as [P1 P2 P3]. cbn. destruct (Z.eq_dec e start) as [->|NE]; [lia|].
    exfalso. destruct (P3 start) as (j & [] & _). lia.
  - inversion S1 as [|x y S2 F1]; subst. inversion N as [|x y N1 N2]; subst. destruct P as [P1 P2 P3].
    pose proof (L i (or_introl eq_refl)) as Li. pose proof (P2 i (or_introl eq_refl)) as [Bi Ci]. unfold ends_at in *.
    rewrite Forall_forall in F1.
    assert (OI : off (h i) = start).
    { destruct (P3 start) as (j & J1 & J2); [lia|]. destruct J1 as [<-|J1]; [lia|]. specialize (F1 j J1). unfold le_off in F1. lia. }
    destruct (IH (start + c_len (h i)) e) as [A B].
    + assert (OK : forall j, In j l -> start + c_len (h i) <= off (h j)).
      { intros j J. assert (NE : i <> j) by (intros ->; contradiction). destruct (D i j (or_introl eq_refl) (or_intror J) NE) as [X|X]; [lia|].
        pose proof (L j (or_intror J)). specialize (F1 j J). unfold le_off in F1. lia. }
      constructor; [lia| |].
      * intros j J. specialize (P2 j (or_intror J)). specialize (OK j J). unfold ends_at. lia.
      * intros p Hp. destruct (P3 p) as (j & J1 & J2); [lia|]. destruct J1 as [<-|J1]; [lia|]. exists j. split; assumption.
    + exact S2.
    + intros a b Ha Hb. apply D; right; assumption.
    + exact N2.
    + intros j J. apply L. right. exact J.
    + cbn [map positions total fold_right]. split; [rewrite OI, A; reflexivity|]. rewrite B. unfold total. cbn [map fold_right]. lia.
Qed.

(** Strictly ascending. *)
Lemma sorted_strict h l : StronglySorted (fun i j => off (h i) <= off (h j)) l -> disjoint h l -> NoDup l ->
  (forall i, In i l -> 0 < c_len (h i)) -> StronglySorted (fun i j => off (h i) + c_len (h i) <= off (h j)) l.
Proof.
  induction l as [|i l IH]; intros S1 D N L; constructor.
  - inversion S1; inversion N; subst. apply IH; auto. intros a b Ha Hb. apply D; right; assumption. intros; apply L; right; assumption.
  - inversion S1 as [|x y S2 F1]; inversion N as [|x' y' N1 N2]; subst. rewrite Forall_forall in *. intros j J. specialize (F1 j J).
    assert (NE : i <> j) by (intros ->; contradiction). pose proof (L j (or_intror J)).
    destruct (D i j (or_introl eq_refl) (or_intror J) NE); lia.
Qed.
Lemma caps_ascending rd wr f0 ops f ext : In (rd, wr) spaces -> fresh f0 -> typed f0 ops -> frun wr ops f0 = Ok f ->
  fits_along ext wr ops f0 ->
  StronglySorted (fun i j => off (f_heap f i) + c_len (f_heap f i) <= off (f_heap f j)) (caps_of ext f).
Proof.
  intros W Fr T E FA. apply sorted_strict.
  - exact (caps_sorted _ _ _ _ _ _ W Fr T E).
  - exact (caps_disjoint _ _ _ _ _ _ W Fr T E FA).
  - exact (proj1 (caps_members _ _ _ _ _ ext W Fr T E)).
  - intros i _. destruct (caps_static _ _ _ _ _ i W Fr T E) as (_ & _ & _ & ->). apply Fr.
Qed.

(** Reads and writes of a register in the range of a capability. *)
Lemma caps_owner rd wr f0 ops f ext i r : In (rd, wr) spaces -> fresh f0 -> typed f0 ops -> frun wr ops f0 = Ok f ->
  fits_along ext wr ops f0 -> In i (caps_of ext f) -> 0 <= r < c_len (f_heap f i) ->
  (if ext then 64 <= off (f_heap f i) + r < 1024 else 16 <= off (f_heap f i) + r < 64) ->
  rd f (off (f_heap f i) + r) = cap_read (f_heap f i) r /\
  forall data mask, wr (off (f_heap f i) + r) data mask f = with_heap (hset i (cap_write r data mask (f_heap f i))) f.
Proof.
  intros W Fr T E FA Hi Hr B. pose proof (caps_disjoint _ _ _ _ _ _ W Fr T E FA) as D.
  destruct ext; cbn [caps_of] in *; split; intros.
  - rewrite (proj2 (space_read _ _ _ _ W) B). apply owner_read; assumption.
  - rewrite (proj2 (space_write _ _ _ _ _ _ W) B). unfold with_heap. rewrite owner_write by assumption. reflexivity.
  - rewrite (proj1 (space_read _ _ _ _ W) B). apply owner_read; assumption.
  - rewrite (proj1 (space_write _ _ _ _ _ _ W) B). unfold with_heap. rewrite owner_write by assumption. reflexivity.
Qed.

Lemma caps_class rd wr f0 ops f ext i : In (rd, wr) spaces -> fresh f0 -> typed f0 ops -> frun wr ops f0 = Ok f ->
  In i (caps_of ext f) -> is_ext (c_kind (f_heap f i)) = ext.
Proof.
  intros W Fr T E Hi. destruct (frun_ind rd wr f0 (fun _ _ => True) W Fr Logic.I (fun _ _ _ _ _ _ _ _ => Logic.I) ops f T E) as (_ & FI).
  exact (li_ext _ _ _ (fi_list _ _ FI ext) i Hi).
Qed.
Lemma caps_walk rd wr f0 ops f : In (rd, wr) spaces -> fresh f0 -> (forall i, headed (f_heap f0 i)) ->
  typed f0 ops -> frun wr ops f0 = Ok f -> existsb (is_dereg false) ops = false -> fits_along false wr ops f0 ->
  (forall i, In i (f_caps f) -> 16 <= off (f_heap f i) < 64) ->
  walk_caps (S (length (f_caps f))) (rd f) = Some (map (fun i => off (f_heap f i)) (f_caps f)).
Proof.
  intros W Fr HD T E ND FA B. destruct (caps_no_dereg _ _ _ _ _ _ W Fr T E ND) as [C P].
  apply (walk_caps_ok rd wr); [exact W|exact C|exact (P eq_refl)|exact (caps_disjoint _ _ _ _ _ _ W Fr T E FA)|].
  intros i Hi. destruct (caps_static _ _ _ _ _ i W Fr T E) as (K1 & _ & _ & K2). rewrite K1, K2.
  split; [apply B; exact Hi|]. split; [apply Fr|]. split.
  - rewrite <- K1. exact (caps_class _ _ _ _ _ false i W Fr T E Hi).
  - specialize (HD i). unfold headed in *. rewrite K1. exact HD.
Qed.
Lemma caps_walk_ext rd wr f0 ops f : In (rd, wr) spaces -> fresh f0 -> 
  (forall i, c_id (f_heap f0 i) mod 65536 <> 0) ->
  typed f0 ops -> frun wr ops f0 = Ok f -> existsb (is_dereg true) ops = false -> fits_along true wr ops f0 ->
  (forall i, hd_error (f_ecaps f) = Some i -> off (f_heap f i) = 64) ->
  (forall i, In i (f_ecaps f) -> off (f_heap f i) < 1024) ->
  walk_ext (S (length (f_ecaps f))) (rd f) = Some (map (fun i => off (f_heap f i)) (f_ecaps f)).
Proof.
  intros W Fr HD T E ND FA HH B. destruct (caps_no_dereg _ _ _ _ _ _ W Fr T E ND) as [C _].
  assert (LO : forall i, In i (f_ecaps f) -> 64 <= off (f_heap f i)).
  { pose proof (caps_sorted _ _ _ _ _ true W Fr T E) as S1. cbn [caps_of] in S1. destruct (f_ecaps f) as [|k l]; [intros i []|].
    specialize (HH k eq_refl). inversion S1 as [|x y S2 F1]; subst. rewrite Forall_forall in F1.
    intros i [<-|Hi]; [lia|]. specialize (F1 i Hi). lia. }
  apply (walk_ext_ok rd wr); [exact W|exact C|exact (caps_disjoint _ _ _ _ _ _ W Fr T E FA)| |].
  - intros i Hi. destruct (caps_static _ _ _ _ _ i W Fr T E) as (_ & K1 & _ & _). split; [apply HH; exact Hi|]. rewrite K1. apply HD.
  - intros i Hi. destruct (caps_static _ _ _ _ _ i W Fr T E) as (_ & _ & _ & K2). specialize (LO i Hi). specialize (B i Hi).
    rewrite K2. split; [lia|]. split; [apply Fr|]. exact (caps_class _ _ _ _ _ true i W Fr T E Hi).
Qed.

Lemma positions_bound lens : forall start p, (forall n, In n lens -> 0 < n) -> In p (positions start lens) ->
  start <= p < start + total lens.
Proof.
  induction lens as [|n lens IH]; intros start p P H; [destruct H|]. cbn [positions total fold_right] in *. fold (total lens) in *.
  pose proof (P n (or_introl eq_refl)).
  assert (0 <= total lens).
  { clear -P. induction lens as [|m lens IH]; [cbn; lia|]. cbn [total fold_right]. fold (total lens).
    pose proof (P m (or_intror (or_introl eq_refl))). enough (0 <= total lens) by lia. apply IH. intros k [<-|K]; apply P; [left; reflexivity|right; right; exact K]. }
  destruct H as [<-|H]; [lia|]. specialize (IH _ _ (fun k K => P k (or_intror K)) H). lia.
Qed.
(** Registrations without offset. *)
Lemma caps_auto rd wr f0 ops f ext : In (rd, wr) spaces -> fresh f0 -> (forall i, 2 <= c_len (f_heap f0 i)) ->
  typed f0 ops -> frun wr ops f0 = Ok f -> auto_only ext ops ->
  let l := caps_of ext f in let o := fun i => off (f_heap f i) in let lens := map (fun i => c_len (f_heap f i)) l in
  disjoint (f_heap f) l /\ map o l = positions (caps_start ext) lens /\
  forall i, In i l -> caps_start ext <= o i < caps_start ext + total lens.
Proof.
  intros W Fr L2 T E AO. destruct (auto_only_fits _ _ _ _ _ _ W Fr L2 T E AO) as (FA & e & PK). cbv zeta.
  pose proof (caps_disjoint _ _ _ _ _ _ W Fr T E FA) as D.
  assert (LP : forall i, In i (caps_of ext f) -> 0 < c_len (f_heap f i)).
  { intros i _. destruct (caps_static _ _ _ _ _ i W Fr T E) as (_ & _ & _ & ->). apply Fr. }
  destruct (packed_positions _ _ _ _ PK (caps_sorted _ _ _ _ _ ext W Fr T E) D (proj1 (caps_members _ _ _ _ _ ext W Fr T E)) LP) as [A _].
  split; [exact D|]. split; [exact A|]. intros i Hi. apply positions_bound.
  - intros n Hn. apply in_map_iff in Hn. destruct Hn as (j & <- & J). apply LP. exact J.
  - rewrite <- A. apply (in_map (fun i => off (f_heap f i))). exact Hi.
Qed.
Lemma caps_auto_walk rd wr f0 ops f : In (rd, wr) spaces -> fresh f0 ->
  (forall i, 2 <= c_len (f_heap f0 i) /\ headed (f_heap f0 i)) ->
  typed f0 ops -> frun wr ops f0 = Ok f -> auto_only false ops ->
  let lens := map (fun i => c_len (f_heap f i)) (f_caps f) in total lens <= 48 ->
  walk_caps (S (length (f_caps f))) (rd f) = Some (positions 16 lens).
Proof.
  intros W Fr H T E AO lens B. destruct (auto_only_fits _ _ _ _ _ _ W Fr (fun i => proj1 (H i)) T E AO) as (FA & _).
  destruct (caps_auto _ _ _ _ _ _ W Fr (fun i => proj1 (H i)) T E AO) as (_ & P & R). cbn [caps_of caps_start] in *.
  rewrite (caps_walk rd wr f0 ops f W Fr (fun i => proj2 (H i)) T E (proj2 AO) FA).
  - f_equal. exact P.
  - intros i Hi. specialize (R i Hi). fold lens in R. lia.
Qed.
Lemma caps_auto_walk_ext rd wr f0 ops f : In (rd, wr) spaces -> fresh f0 ->
  (forall i, 2 <= c_len (f_heap f0 i) /\ c_id (f_heap f0 i) mod 65536 <> 0) ->
  typed f0 ops -> frun wr ops f0 = Ok f -> auto_only true ops ->
  let lens := map (fun i => c_len (f_heap f i)) (f_ecaps f) in total lens <= 960 ->
  walk_ext (S (length (f_ecaps f))) (rd f) = Some (positions 64 lens).
Proof.
  intros W Fr H T E AO lens B. destruct (auto_only_fits _ _ _ _ _ _ W Fr (fun i => proj1 (H i)) T E AO) as (FA & _).
  destruct (caps_auto _ _ _ _ _ _ W Fr (fun i => proj1 (H i)) T E AO) as (_ & P & R). cbn [caps_of caps_start] in *.
  rewrite (caps_walk_ext rd wr f0 ops f W Fr (fun i => proj2 (H i)) T E (proj2 AO) FA).
  - f_equal. exact P.
  - intros i Hi. destruct (f_ecaps f) as [|k l]; [discriminate|]. cbn in Hi. injection Hi as ->. cbn in P. injection P as P _. exact P.
  - intros i Hi. specialize (R i Hi). fold lens in R. lia.
Qed.

(** Deciding [fits_along], for the examples. *)
Definition fitsb (start : Z) (i : nat) (h : heap) (l : list nat) : bool :=
  let o := auto_off h (c_len (h i)) l start + c_len (h i) - 1 in forallb (fun j => negb (off (h j) =? o)) l.
Fixpoint autos_fitb (start : Z) (js : list nat) (h : heap) (l : list nat) : bool :=
  match js with
  | [] => true
  | j :: r => let h := hset j (c_set_off None (h j)) h in
    fitsb start j h l && let (h', l') := register_auto start j (h, l) in autos_fitb start r h' l'
  end.
Definition register_fitsb (start : Z) (i : nat) (o : option Z) (h : heap) (l : list nat) : bool :=
  let l := remove1 i l in
  let h := match o with Some _ => hset i (c_set_off o (h i)) h | None => h end in
  if match c_off (h i) with Some o => negb (o =? 0) | None => false end then
    let bump := filter (fun j => overlaps (h i) (h j)) l in
    let (h, l) := build (fold_left (fun l j => remove1 j l) bump l ++ [i]) h in
    autos_fitb start bump h l
  else fitsb start i h l.
Fixpoint fits_alongb (ext : bool) (wr : Z -> Z -> Z -> fnc -> fnc) (ops : list fop) (f : fnc) : bool :=
  match ops with
  | [] => true
  | op :: r =>
    match ext, op with
    | false, FReg i o => register_fitsb (caps_start false) i o (f_heap f) (f_caps f)
    | true, FRegX i o => register_fitsb (caps_start true) i o (f_heap f) (f_ecaps f)
    | _, _ => true
    end &&
    match fstep wr op f with Ok f => fits_alongb ext wr r f | Err _ => true end
  end.
Lemma fitsb_ok start i h l : fitsb start i h l = true -> fits start i h l.
Proof.
  unfold fitsb, fits. cbv zeta. rewrite forallb_forall. intros H j J. specialize (H j J). lia.
Qed.
Lemma autos_fitb_ok start js : forall h l, autos_fitb start js h l = true -> autos_fit start js h l.
Proof.
  induction js as [|j js IH]; intros h l H; [exact Logic.I|]. cbn [autos_fitb autos_fit] in *. apply andb_prop in H. destruct H as [H1 H2].
  split; [apply fitsb_ok; exact H1|]. destruct (register_auto start j _) as [h' l']. apply IH. exact H2.
Qed.
Lemma register_fitsb_ok start i o h l : register_fitsb start i o h l = true -> register_fits start i o h l.
Proof.
  unfold register_fitsb, register_fits. cbv zeta.
  destruct (match c_off _ with Some o => negb (o =? 0) | None => false end); [|apply fitsb_ok].
  destruct (build _ _) as [h' l']. apply autos_fitb_ok.
Qed.
Lemma fits_alongb_ok ext wr ops : forall f, fits_alongb ext wr ops f = true -> fits_along ext wr ops f.
Proof.
  induction ops as [|op ops IH]; intros f H; [exact Logic.I|]. cbn [fits_alongb fits_along] in *. apply andb_prop in H. destruct H as [H1 H2].
  split; [destruct ext, op; try exact Logic.I; apply register_fitsb_ok; exact H1|].
  destruct (fstep wr op f); [apply IH; exact H2|exact Logic.I].
Qed.
