(** Interrupts: how many vectors a driver gets, and which writes set an event. *)
From Verif Require Import Base BaseProofs Bits ModelUtils ModelTlp ModelRegion ModelCompleter ModelTags ModelAttrs ModelCaps ModelCapList ModelConfig ModelFunction ModelHost
  ModelPci ModelMsi SpecRegs SpecConfig SpecHost SpecMsi ProofsUtils ProofsMem ProofsRegs ProofsCaps ProofsCapFn ProofsConfig ProofsConfigTop ProofsHost ProofsBar ProofsProbe ProofsMsi ProofsMsiSys.

Section Sets.
Context {S : Type}.
Variables (cr : Z -> Z -> S -> res (S * list Z)) (cw : Z -> list Z -> S -> res S) (co : Z -> Z)
  (bw : Z -> Z -> Z -> S -> res S) (br : Z -> Z -> S -> res (S * Z)).
Lemma msi_on e q s q' s' : msi_set_enable cr cw co e q s = Ok (q', s') -> q_msi q' = e /\ q_msix q' = q_msix q.
Proof. unfold msi_set_enable. destruct (set_enable _ _ _ _ _ _ s); cbn [bind]; [|discriminate]. intros H. apply Ok_inj in H. injection H as <- <-. split; reflexivity. Qed.
Lemma msix_on e q s q' s' : msix_set_enable cr cw co e q s = Ok (q', s') -> q_msix q' = e /\ q_msi q' = q_msi q.
Proof. unfold msix_set_enable. destruct (set_enable _ _ _ _ _ _ s); cbn [bind]; [|discriminate]. intros H. apply Ok_inj in H. injection H as <- <-. split; reflexivity. Qed.
Lemma bind_ok {A B} (m : res A) (k : A -> res B) b : (a <- m ;; k a) = Ok b -> exists a, m = Ok a /\ k a = Ok b.
Proof. destruct m as [a|e]; cbn [bind]; [|discriminate]. intros H. exists a. auto. Qed.
Lemma msi_init_on q r s q' r' s' : msi_capability_init cr cw co q r s = Ok (q', r', s') -> q_msi q' = true /\ q_msix q' = q_msix q.
Proof.
  unfold msi_capability_init. intros H. apply bind_ok in H as ([q1 s1] & H1 & H). apply msi_on in H1 as [_ X1]. cbv zeta in H.
  destruct (match q_vectors _ with [] => _ | _ => _ end) as [q2 r2] eqn:E.
  assert (X2 : q_msix q2 = q_msix q).
  { revert E. cbn [q_vectors]. destruct (q_vectors q1); [destruct (alloc_vectors 32 r) as [v rr]|]; intros E; injection E as <- <-; exact X1. }
  apply bind_ok in H as ([s2 mc] & _ & H). destruct (q_vectors q2); [discriminate H|].
  apply bind_ok in H as (s3 & _ & H). apply bind_ok in H as (s4 & _ & H). apply bind_ok in H as (s5 & _ & H). apply bind_ok in H as ([q3 s6] & H1 & H).
  apply msi_on in H1 as [Y1 Y2]. apply Ok_inj in H. injection H as <- <- <-. split; [exact Y1|congruence].
Qed.
Lemma msix_init_on q r s q' r' s' : msix_capability_init cr cw co bw br q r s = Ok (q', r', s') -> q_msix q' = true /\ q_msi q' = q_msi q.
Proof.
  unfold msix_capability_init. intros H. apply bind_ok in H as ([q1 s1] & H1 & H). apply msix_on in H1 as [_ X1]. cbv zeta in H.
  apply bind_ok in H as ([s2 mc] & _ & H). apply bind_ok in H as ([s3 t1] & _ & H). apply bind_ok in H as ([s4 t2] & _ & H).
  destruct (match q_vectors _ with [] => _ | _ => _ end) as [q2 r2] eqn:E.
  assert (X2 : q_msi q2 = q_msi q).
  { revert E. cbn [q_vectors]. destruct (q_vectors q1); [destruct (alloc_vectors _ r) as [v rr]|]; intros E; injection E as <- <-; exact X1. }
  apply bind_ok in H as (s5 & _ & H). apply bind_ok in H as ([s6 zz] & _ & H). apply bind_ok in H as (s7 & _ & H). apply bind_ok in H as ([q3 s8] & H1 & H).
  apply msix_on in H1 as [Y1 Y2]. apply Ok_inj in H. injection H as <- <- <-. split; [exact Y1|congruence].
Qed.
End Sets.

Section Count.
Variables (d : mdev) (m x : option nat).
Lemma msix_count mn mx q f t r q' r' s' n : irq_function d f m x -> q_msi q = false -> q_msix q = false -> mn <= mx ->
  enable_msix_range (d_cr d) (d_cw d) (d_co d) d_bw d_br mn mx q r (f, t) = Ok (q', r', s', n) ->
  match msix_offer mn mx x f with
  | Some k => n = k /\ q_msix q' = true /\ q_msi q' = false
  | None => n = -1 /\ q' = q /\ r' = r /\ (s' = (f, t) \/ s' = (with_id (d_id d) f, t))
  end.
Proof.
  intros A QM QX MM H. unfold enable_msix_range in H. pose proof A as (_ & _ & _ & _ & A4). unfold msix_offer. destruct x as [i|] eqn:XE.
  2: { rewrite A4 in H. apply Ok_inj in H. injection H as <- <- <- <-. auto. }
  pose proof A4 as (P1 & P2 & KD & _). replace (zbool (d_co d MSIX_ID)) with true in H by (unfold zbool; lia). cbn [negb] in H. rewrite QM, QX in H.
  replace (mx <? mn) with false in H by lia. destruct (msix_ctrl _ KD) as (c & RD & CV & _ & CS).
  rewrite (cap_rd_ctrl d (proj1 A) MSIX_ID i KMsix 3 c f t A4 ltac:(lia) ltac:(destruct A as (_ & A1 & A2 & _); split; assumption) RD CV) in H. cbn [bind] in H. cbv zeta in H.
  change 65536 with (2 ^ 16) in H. rewrite <- Z.shiftr_div_pow2 in H by lia. rewrite CS, entries_land in H. unfold granted.
  destruct (_ <? mn). { apply Ok_inj in H. injection H as <- <- <- <-. auto. }
  apply bind_ok in H as ([[q1 r1] s1] & H1 & H). apply msix_init_on in H1 as [X1 X2]. apply Ok_inj in H. injection H as <- <- <- <-.
  split; [|split; congruence]. match goal with |- (if ?b then _ else _) = _ => destruct b eqn:E end; lia.
Qed.
Lemma msi_count mn mx q f t r q' r' s' n : irq_function d f m x -> q_msi q = false -> q_msix q = false -> mn <= mx ->
  enable_msi_range (d_cr d) (d_cw d) (d_co d) mn mx q r (f, t) = Ok (q', r', s', n) ->
  match msi_offer mn mx m f with
  | Some k => n = k /\ q_msi q' = true /\ q_msix q' = false
  | None => n = -1 /\ q' = q
  end.
Proof.
  intros A QM QX MM H. unfold enable_msi_range in H. pose proof A as (_ & _ & _ & A4 & _). unfold msi_offer. destruct m as [i|] eqn:XE.
  2: { rewrite A4 in H. apply Ok_inj in H. injection H as <- <- <- <-. auto. }
  destruct A4 as (A4 & A5 & _). pose proof A4 as (P1 & P2 & KD & _). replace (zbool (d_co d MSI_ID)) with true in H by (unfold zbool; lia). cbn [negb] in H. rewrite QM, QX in H.
  replace (mx <? mn) with false in H by lia. destruct (msi_ctrl _ KD) as (c & RD & CV & _ & CS & _).
  rewrite (cap_rd_ctrl d (proj1 A) MSI_ID i KMsi 4 c f t A4 ltac:(lia) ltac:(destruct A as (_ & A1 & A2 & _); split; assumption) RD CV) in H. cbn [bind] in H. cbv zeta in H.
  assert (E : Z.shiftl 1 (Z.land (Z.shiftr (c / 65536) 1) 7) = 2 ^ c_attr (f_heap f i) ms_msi_multiple_message_capable).
  { change 65536 with (2 ^ 16). rewrite <- Z.shiftr_div_pow2, Z.shiftr_shiftr by lia. change (16 + 1) with 17. rewrite CS. change 7 with (Z.ones 3). rewrite Z.land_ones by lia.
    rewrite Z.mod_small by (change (2 ^ 3) with 8; lia). rewrite Z.shiftl_1_l. reflexivity. }
  rewrite E in H. unfold granted. destruct (_ <? mn). { apply Ok_inj in H. injection H as <- <- <- <-. auto. }
  apply bind_ok in H as ([[q1 r1] s1] & H1 & H). apply msi_init_on in H1 as [X1 X2]. apply Ok_inj in H. injection H as <- <- <- <-.
  split; [|split; congruence]. match goal with |- (if ?b then _ else _) = _ => destruct b eqn:E1 end; lia.
Qed.
Lemma alloc_count mn mx q f t r q' r' s' n : irq_function d f m x -> q_msi q = false -> q_msix q = false -> 1 <= mn <= mx ->
  alloc_irq_vectors (d_cr d) (d_cw d) (d_co d) d_bw d_br mn mx q r (f, t) = Ok (q', r', s', n) ->
  match msix_offer mn mx x f, msi_offer mn mx m f with
  | Some k, _ => n = k /\ q_msix q' = true /\ q_msi q' = false
  | None, Some k => n = k /\ q_msix q' = false /\ q_msi q' = true
  | None, None => n = -1 /\ q_msix q' = false /\ q_msi q' = false
  end.
Proof.
  intros A QM QX MM H. unfold alloc_irq_vectors in H. apply bind_ok in H as ([[[q1 r1] s1] n1] & H1 & H). apply msix_count in H1; [|assumption..|lia].
  assert (POS : forall k, msix_offer mn mx x f = Some k -> 0 < k).
  { intros k. unfold msix_offer, granted. destruct x as [j|]; [|discriminate]. destruct (_ <? mn) eqn:E; [discriminate|]. intros K. injection K as <-. lia. }
  destruct (msix_offer mn mx x f) as [k|] eqn:E.
  - destruct H1 as (-> & X1 & X2). specialize (POS k eq_refl). replace (0 <? k) with true in H by lia. apply Ok_inj in H. injection H as <- <- <- <-. auto.
  - destruct H1 as (-> & -> & -> & S1). cbn [Z.ltb Z.compare] in H.
    assert (SO : exists g, s1 = (g, t) /\ irq_function d g m x /\ msi_offer mn mx m g = msi_offer mn mx m f).
    { destruct S1 as [->| ->]; eexists; split; try reflexivity; split; try reflexivity; [exact A|].
      destruct A as (A1 & A2 & A3 & A4 & A5). split; [exact A1|]. split; [reflexivity|]. split; [reflexivity|]. split; [exact A4|exact A5]. }
    destruct SO as (g & -> & AG & <-). apply msi_count in H; [|assumption..|lia].
    destruct (msi_offer mn mx m g); [destruct H as (-> & X1 & X2)|destruct H as (-> & ->)]; auto.
Qed.
End Count.
Lemma count_ok dev f0 m x : (forall i, irq_function (dev i) (fst (f0 i)) (m i) (x i)) ->
  forall ops y i mn mx q r s n, mrun dev ops (msys0 f0) = Ok y -> q_msi (y_irq y i) = false -> q_msix (y_irq y i) = false -> 1 <= mn <= mx ->
  alloc_irq_vectors (d_cr (dev i)) (d_cw (dev i)) (d_co (dev i)) d_bw d_br mn mx (y_irq y i) (y_region y) (y_fn y i) = Ok (q, r, s, n) ->
  match msix_offer mn mx (x i) (fst (y_fn y i)), msi_offer mn mx (m i) (fst (y_fn y i)) with
  | Some k, _ => n = k /\ q_msix q = true /\ q_msi q = false
  | None, Some k => n = k /\ q_msix q = false /\ q_msi q = true
  | None, None => n = -1 /\ q_msix q = false /\ q_msi q = false
  end.
Proof.
  intros FN ops y i mn mx q r s n RUN QM QX MM H. pose proof (y_run dev f0 m x False ltac:(intros []) ops _ _ (y_init dev f0 m x False ltac:(intros []) FN) RUN) as I.
  pose proof (di_fn _ _ _ _ _ _ _ _ (yi_d _ _ _ _ _ _ I i)) as A. destruct (y_fn y i) as [f t]. cbn [fst] in *. eapply alloc_count; eassumption.
Qed.

(** ** Writes *)
Lemma writes_ok r a d runs : forall ns, msi_writes r a d runs = Ok ns -> forall n, In n ns ->
  exists s e v, In (s, e) runs /\ a + s = msi_base /\ zlen (ModelRegion.slice s e d) = 4 /\ In v (mr_vectors r) /\ v_data v = from_le (ModelRegion.slice s e d) /\ n = v_obj v.
Proof.
  induction runs as [|[s e] runs IH]; cbn [msi_writes]; intros ns H n IN.
  - apply Ok_inj in H. subst ns. destruct IN.
  - apply bind_ok in H as (k & H1 & H). apply bind_ok in H as (l & H2 & H). apply Ok_inj in H. subst ns. destruct IN as [->|IN].
    + unfold msi_region_write in H1. destruct (a + s - msi_base =? 0) eqn:E1; [|discriminate H1]. cbn [py_assert bind] in H1.
      destruct (zlen (ModelRegion.slice s e d) =? 4) eqn:E2; [|discriminate H1]. cbn [py_assert bind] in H1. destruct (find _ _) as [v|] eqn:E3; [|discriminate H1].
      apply Ok_inj in H1. apply find_some in E3 as [E3 E4]. exists s, e, v. split; [left; reflexivity|]. repeat split; try lia; auto.
    + destruct (IH l H2 n IN) as (s1 & e1 & v & I1 & Y). exists s1, e1, v. split; [right; exact I1|exact Y].
Qed.
Lemma events_ok r t ns n : rc_msi_write r t = Ok ns -> In n ns ->
  (msi_base <= address t /\ address t + tlen t * 4 <= msi_base + msi_size) /\
  exists s e v, In (s, e) (write_runs t) /\ address t + s = msi_base /\ zlen (ModelRegion.slice s e (data t)) = 4 /\
    In v (mr_vectors r) /\ v_data v = from_le (ModelRegion.slice s e (data t)) /\ n = v_obj v.
Proof.
  unfold rc_msi_write. intros H IN. destruct (negb _) eqn:R. { apply Ok_inj in H. subst ns. destruct IN. }
  destruct (_ >? _). { apply Ok_inj in H. subst ns. destruct IN. } split; [lia|eapply writes_ok; eassumption].
Qed.
