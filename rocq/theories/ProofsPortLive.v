(** Progress of the link: updates after a release, acknowledgements, initialisation. *)
From Verif Require Import Base BaseProofs ModelTlp SpecTlp ModelDllp ModelPort SpecPort ProofsPort ProofsPortInv
  ProofsPortSys ProofsPortObs ProofsPortThms.

Lemma step_now e st st' : step e st = Ok st' -> s_now st <= s_now st'.
Proof.
  destruct e; cbn [step]; intros H;
    repeat match type of H with
    | Ok _ = Ok _ => apply Ok_inj in H; subst st'; cbn [sys_port s_now]; try lia;
      repeat match goal with E : _ && _ = true |- _ => apply andb_prop in E; destruct E end; lia
    | context [match ?x with _ => _ end] => destruct x eqn:?; try discriminate
    | context [if ?x then _ else _] => destruct x eqn:?
    | bind ?x _ = _ => destruct x eqn:?; [cbn [bind] in H|discriminate]
    end.
Qed.
Lemma run_now es : forall st st', run es st = Ok st' -> s_now st <= s_now st'.
Proof.
  induction es as [|e es IH]; intros st st'; cbn [run]; [intros H; apply Ok_inj in H; subst; lia|].
  destruct (step e st) as [st1|] eqn:E; [cbn [bind]|discriminate]. intros H. apply IH in H. apply step_now in E. lia.
Qed.
Lemma reach_now ia ib st : reach ia ib st -> 0 <= s_now st.
Proof.
  intros (da & db & steps & s0 & es & H0 & Hr). apply run_now in Hr. unfold link_new in H0.
  destruct (port_new ia da steps); [|discriminate]. destruct (port_new ib db steps); [|discriminate].
  cbn [bind] in H0. apply Ok_inj in H0. subst s0. exact Hr.
Qed.

(** ** Updates *)
Lemma upd_same {A} s (v : A) f : upd s v f s = v.
Proof. unfold upd. rewrite eqb_reflx. reflexivity. Qed.
Lemma get_set3 {A} ty ty' (v : A) r : get3 ty' (set3 ty v r) = if fc_eqb ty' ty then v else get3 ty' r.
Proof. destruct ty, ty'; reflexivity. Qed.
Lemma rx_alloc_reach ia ib st s k ty : reach ia ib st ->
  rx_alloc (fcof k ty (p_ch (s_port st s))) =
  annd k (advertised ia ib k ty s) (freed k ty (released s (s_log st)) 0 (received s (s_log st))).
Proof.
  intros R. destruct (reach_inv _ _ _ R (negb s)) as [D _]. unfold dinv in D. rewrite negb_involutive in D.
  pose proof (d_fc _ _ _ _ _ _ _ _ _ _ D k ty) as F. cbv zeta in F. unfold adv_of in F. tauto.
Qed.
Lemma due_now c ty now : c_active c = true -> c_fi2 c = true -> get3 ty (c_nxt c) <= now ->
  (forall x, x <> ty -> now < get3 x (c_nxt c)) -> update_due now c = Some ty.
Proof.
  intros A F L O. unfold update_due. rewrite A, F. cbn [negb orb].
  pose proof (O FC_P) as Op. pose proof (O FC_NP) as On. pose proof (O FC_CPL) as Oc. cbn [get3] in *.
  destruct ty; cbn [get3] in L;
    repeat match goal with
    | H : ?a <> ?a -> _ |- _ => clear H
    | H : ?a <> ?b -> _ |- _ => specialize (H ltac:(discriminate))
    end;
    repeat match goal with
    | |- context [?a <=? ?b] => destruct (Z.leb_spec a b); try lia
    end; reflexivity.
Qed.
Lemma release_updates ia ib st s n t ty w : reach ia ib st ->
  nth_error (received s (s_log st)) n = Some t -> fc_class (fmt t) (type_ t) = Some ty ->
  released s (s_log st) n = false -> c_fi2 (p_ch (s_port st s)) = true ->
  p_busy (s_port st s) = None -> p_send_ack (s_port st s) = false ->
  (forall x, x <> ty -> s_now st < get3 x (c_nxt (p_ch (s_port st s)))) ->
  exists st' d, run [ERelease s n; EFcTimer s; ETx s w] st = Ok st' /\
    s_log st' = s_log st ++ [LRelease s n; LDllpTx s d] /\ is_update ty d = true /\
    forall k, dllp_val k d = annd k (advertised ia ib k ty s)
                (freed k ty (released s (s_log st')) 0 (received s (s_log st'))).
Proof.
  intros R Hn Hc Hr F2 B A O.
  destruct (reach_inv _ _ _ R (negb s)) as [D _]. unfold dinv in D. rewrite negb_involutive in D.
  destruct (reach_inv _ _ _ R s) as [D' _]. unfold dinv in D'.
  assert (Ln : (n < length (received s (s_log st)))%nat) by (apply nth_error_Some; congruence).
  assert (C : Forall classed (received s (s_log st))).
  { destruct (d_deliv _ _ _ _ _ _ _ _ _ _ D) as (x & Hx & ->). destruct (d_cls _ _ _ _ _ _ _ _ _ _ D) as [C _].
    rewrite Hx in C. apply Forall_app in C. destruct C as [C _]. rewrite Forall_map. eapply Forall_impl; [|exact C]. apply classed_copy. }
  assert (G : get_fc_type t = Ok ty).
  { pose proof (proj1 (Forall_forall _ _) C t (nth_error_In _ _ Hn)) as [y Hy].
    pose proof (fc_type_classed _ _ Hy) as E. rewrite Hc in E. injection E as <-. exact Hy. }
  assert (T : rel_find n (c_rel (p_ch (s_port st s))) = Some (ty, get_data_credits t)).
  { rewrite (d_rel _ _ _ _ _ _ _ _ _ _ D), rel_find_unreleased by (auto; lia).
    rewrite Hr, Nat.sub_0_r, Hn, G. reflexivity. }
  assert (S1 : exists c, rx_release_fc_token n (p_ch (s_port st s)) = Some c /\ c_active c = true /\ c_fi2 c = true /\
    c_nxt c = set3 ty 0 (c_nxt (p_ch (s_port st s)))).
  { unfold rx_release_fc_token. rewrite T. eexists. split; [reflexivity|]. unfold rx_release_fc, on_credits, set_nxt, set_credits, set_rel.
    cbn [c_active c_fi2 c_nxt]. destruct (d_flags _ _ _ _ _ _ _ _ _ _ D') as (? & _). auto. }
  destruct S1 as (c & Ec & Ac & Fc & Nc).
  set (st1 := sys_port s (set_p_fc_timer true (set_p_ch c (s_port st s))) [LRelease s n] st).
  assert (E1 : step (ERelease s n) st = Ok st1).
  { cbn [step]. rewrite (d_tok _ _ _ _ _ _ _ _ _ _ D). destruct (Nat.ltb_spec n (length (received s (s_log st)))); [|lia].
    rewrite Ec. reflexivity. }
  assert (R1 : reach ia ib st1).
  { eapply (reach_run _ _ [ERelease s n]); [exact R|]. cbn [run]. rewrite E1. reflexivity. }
  set (p2 := set_p_send_fc true (set_p_fc_timer false (set_p_fc_timer true (set_p_ch c (s_port st s))))).
  set (st2 := sys_port s p2 [] st1).
  assert (E2 : step (EFcTimer s) st1 = Ok st2).
  { unfold st1 at 1. cbn [step sys_port s_port]. rewrite upd_same. reflexivity. }
  set (p3 := set_p_busy (Some (s_now st + Z.max w 1, PDllp (fc_dllp (update_code ty) ty c)))
    (set_p_ch (set_nxt (set3 ty (s_now st + p_steps p2) (c_nxt c)) c) p2)).
  assert (E3 : step (ETx s w) st2 = Ok (sys_port s p3 [LDllpTx s (fc_dllp (update_code ty) ty c)] st2)).
  { cbn [step]. assert (P2 : s_port st2 s = p2) by (unfold st2; cbn [sys_port s_port]; apply upd_same). rewrite P2.
    change (s_now st2) with (s_now st).
    assert (B2 : p_busy p2 = None) by exact B. rewrite B2. unfold tx_select.
    assert (A2 : p_send_ack p2 = false) by exact A. rewrite A2. change (p_send_fc p2) with true. cbn [orb].
    unfold tx_update. change (p_ch p2) with c. rewrite (due_now c ty); [reflexivity|auto|auto|..].
    - rewrite Nc, get_set3. replace (fc_eqb ty ty) with true by (destruct ty; reflexivity). eapply reach_now; eauto.
    - intros x Nx. rewrite Nc, get_set3. replace (fc_eqb x ty) with false by (destruct x, ty; try reflexivity; congruence). auto. }
  eexists. exists (fc_dllp (update_code ty) ty c). split; [|split; [|split]].
  - cbn [run]. rewrite E1. cbn [bind]. rewrite E2. cbn [bind]. rewrite E3. reflexivity.
  - cbn [sys_port s_log st2 st1]. rewrite app_nil_r, <- app_assoc. reflexivity.
  - unfold is_update. cbn [d_type fc_dllp]. destruct ty; reflexivity.
  - intros k. pose proof (rx_alloc_reach _ _ _ s k ty R1) as X.
    unfold st1 at 1 in X. cbn [sys_port s_port] in X. rewrite upd_same in X.
    change (p_ch (set_p_fc_timer true (set_p_ch c (s_port st s)))) with c in X.
    replace (dllp_val k (fc_dllp (update_code ty) ty c)) with (rx_alloc (fcof k ty c)) by (destruct k; reflexivity).
    rewrite X. cbn [sys_port s_log st2 st1]. rewrite app_nil_r. rewrite !received_app. cbn [received flat_map app]. rewrite !app_nil_r.
    f_equal. apply freed_ext. intros i _. rewrite (released_app s (_ ++ _)). cbn [released existsb]. rewrite !orb_false_r. reflexivity.
Qed.

(** ** Acknowledgements *)
Lemma ack_sent ia ib st s st1 t w : reach ia ib st -> (exists i, step (EArrive (negb s) i) st = Ok st1) ->
  received s (s_log st1) = received s (s_log st) ++ [t] -> p_busy (s_port st s) = None ->
  exists st2 d, run [EAckTimer s; ETx s w] st1 = Ok st2 /\ s_log st2 = s_log st1 ++ [LDllpTx s d] /\
    d_type d = D_ACK /\ d_seq d = seq t.
Proof.
  intros R (i & H) Hr B.
  assert (R1 : reach ia ib st1).
  { eapply (reach_run _ _ [EArrive (negb s) i]); [exact R|]. cbn [run]. rewrite H. reflexivity. }
  assert (N1 : p_nak (s_port st1 s) = false).
  { destruct (reach_inv _ _ _ R1 (negb s)) as [D _]. unfold dinv in D. rewrite negb_involutive in D. exact (d_nak _ _ _ _ _ _ _ _ _ _ D). }
  assert (X : p_ack_timer (s_port st1 s) = true /\ p_busy (s_port st1 s) = None /\
              0 <= seq t < 4096 /\ p_next_rx (s_port st1 s) = Z.land (seq t + 1) 0xfff).
  { cbn [step] in H. rewrite !negb_involutive in H.
    assert (F : forall A (l m : list A) x, l = l ++ x :: m -> False).
    { intros A l m x E. apply (f_equal (@length A)) in E. rewrite app_length in E. cbn in E. lia. }
    destruct (nth_error (s_flight st (negb s)) i) as [[tm k]|]; [|apply Ok_inj in H; subst st1; exfalso; eapply F; eassumption].
    destruct (tm =? s_now st); [|apply Ok_inj in H; subst st1; exfalso; eapply F; eassumption].
    destruct (ext_recv k (s_port st s)) as [p'|] eqn:E; [|discriminate]. cbn [bind] in H. apply Ok_inj in H. subst st1.
    cbn [s_log s_port] in *. rewrite upd_same in *. rewrite received_app in Hr. apply app_inv_head in Hr.
    unfold log_rx in Hr. destruct k as [u|d]; [|discriminate]. unfold ext_recv in E.
    destruct (Z.eqb_spec (seq u) (p_next_rx (s_port st s))) as [Eq|]; [|discriminate].
    cbn [received flat_map app] in Hr. rewrite eqb_reflx in Hr. cbn [app] in Hr. injection Hr as <-.
    destruct (rx_process_tlp_fc (tlp_copy u) (p_ch (s_port st s))) as [c|]; [|discriminate]. cbn [bind] in E. apply Ok_inj in E. subst p'.
    destruct (reach_inv _ _ _ R (negb s)) as [D _]. unfold dinv in D. rewrite negb_involutive in D.
    pose proof (d_nrx _ _ _ _ _ _ _ _ _ _ D) as Q. pose proof (Z.mod_pos_bound (zlen (received s (s_log st))) 4096 ltac:(lia)).
    change (seq (tlp_copy u)) with (seq u). rewrite Eq. split; [reflexivity|]. split; [exact B|]. split; [lia|reflexivity]. }
  destruct X as (T1 & B1 & Q1 & Q2). cbn [run step]. rewrite T1. cbn [bind].
  set (p := set_p_ack_timer false (s_port st1 s)). change (p_nak p) with (p_nak (s_port st1 s)). rewrite N1.
  cbn [sys_port s_port s_now]. rewrite upd_same. change (p_busy (set_p_send_ack true p)) with (p_busy (s_port st1 s)). rewrite B1.
  unfold tx_select. change (p_send_ack (set_p_send_ack true p)) with true. cbv iota.
  change (p_nak (set_p_send_ack true p)) with (p_nak (s_port st1 s)). rewrite N1.
  change (p_next_rx (set_p_send_ack true p)) with (p_next_rx (s_port st1 s)). rewrite Q2.
  eexists. eexists. split; [reflexivity|]. cbn [sys_port s_log log_tx]. rewrite app_nil_r. split; [reflexivity|].
  split; [reflexivity|]. cbn [create_ack d_seq].
  change 0xfff with (Z.ones 12). rewrite !Z.land_ones by lia. change (2 ^ 12) with 4096.
  lia.
Qed.

(** ** Initialisation *)
Definition quiet (st : sys) (f : bool -> port) : Prop := forall s, s_flight st s = [] /\ s_port st s = f s /\ p_busy (f s) = None.
Definition trip (s : bool) (d : Z) : list event := [ETx s 1; ETick 1; ETxDone s; ETick (Z.max d 1); EArrive s 0].
Lemma round st f s c : quiet st f -> p_send_ack (f s) = false -> p_send_fc (f s) = false -> p_fc_initialized (f s) = false ->
  p_txq (f s) = [] -> handle_dllp (snd (tx_init_fc (f s))) (f (negb s)) = Ok c -> p_busy c = None ->
  exists st', run (trip s (p_delay (f s))) st = Ok st' /\ quiet st' (upd (negb s) c (upd s (fst (tx_init_fc (f s))) f)).
Proof.
  intros Q A F I X H Bc. destruct (Q s) as (F1 & P1 & B1). destruct (Q (negb s)) as (F2 & P2 & B2).
  cbn [trip run]. destruct st as [P W now L]. cbn [s_flight s_port] in *.
  assert (E1 : step (ETx s 1) (mkSys P W now L) =
    Ok (sys_port s (set_p_busy (Some (now + 1, PDllp (snd (tx_init_fc (f s))))) (fst (tx_init_fc (f s))))
        [LDllpTx s (snd (tx_init_fc (f s)))] (mkSys P W now L))).
  { cbn [step s_port s_now]. rewrite P1, B1. unfold tx_select. rewrite A, F, I, X. cbn [orb negb andb is_nil].
    destruct (tx_init_fc (f s)) as [p d]. reflexivity. }
  rewrite E1. cbn [bind]. clear E1.
  set (p1 := fst (tx_init_fc (f s))) in *. set (d := snd (tx_init_fc (f s))) in *.
  set (q1 := set_p_busy (Some (now + 1, PDllp d)) p1). unfold sys_port. cbn [s_port s_flight s_now s_log].
  assert (Bp : p_busy p1 = None) by exact B1. assert (Dp : p_delay p1 = p_delay (f s)) by reflexivity.
  assert (Bq : p_busy (P (negb s)) = None) by (rewrite P2; exact B2).
  assert (E2 : step (ETick 1) (mkSys (upd s q1 P) W now (L ++ [LDllpTx s d])) = Ok (mkSys (upd s q1 P) W (now + 1) (L ++ [LDllpTx s d]))).
  { cbn [step s_port s_flight s_now s_log]. 
    assert (N : forall b, existsb (fun x => fst x <? now + 1) (W b) = false) by (intros b; destruct s, b; cbn [negb] in *; rewrite ?F1, ?F2; reflexivity).
    rewrite !N.
    assert (M : forall b, match p_busy (upd s q1 P b) with Some (t, _) => t <? now + 1 | None => false end = false).
    { intros b. unfold upd. destruct (Bool.eqb b s) eqn:Eb.
      - change (p_busy q1) with (Some (now + 1, PDllp d)). lia.
      - replace b with (negb s) by (destruct s, b; try reflexivity; discriminate). rewrite Bq. reflexivity. }
    rewrite !M. reflexivity. }
  rewrite E2. cbn [bind]. clear E2.
  set (dl := Z.max (p_delay (f s)) 1). set (L1 := L ++ [LDllpTx s d]).
  set (W1 := upd s [(now + 1 + dl, PDllp d)] W). set (P3 := upd s p1 (upd s q1 P)).
  assert (E3 : step (ETxDone s) (mkSys (upd s q1 P) W (now + 1) L1) = Ok (mkSys P3 W1 (now + 1) L1)).
  { cbn [step s_port s_flight s_now s_log]. rewrite upd_same. change (p_busy q1) with (Some (now + 1, PDllp d)). cbv iota beta zeta.
    rewrite Z.eqb_refl, F1. change (p_delay q1) with (p_delay (f s)). replace (set_p_busy None q1) with p1; [reflexivity|].
    unfold q1. change (set_p_busy None (set_p_busy (Some (now + 1, PDllp d)) p1)) with (set_p_busy None p1). rewrite <- Bp. reflexivity. }
  rewrite E3. cbn [bind]. clear E3.
  assert (B3 : forall b, p_busy (P3 b) = None).
  { intros b. unfold P3, upd. destruct (Bool.eqb b s) eqn:Eb; [exact Bp|].
    replace b with (negb s) by (destruct s, b; try reflexivity; discriminate). exact Bq. }
  assert (E4 : step (ETick dl) (mkSys P3 W1 (now + 1) L1) = Ok (mkSys P3 W1 (now + 1 + dl) L1)).
  { cbn [step s_port s_flight s_now s_log]. rewrite !B3.
    assert (N : forall b, existsb (fun x => fst x <? now + 1 + dl) (W1 b) = false).
    { intros b. unfold W1, upd. destruct (Bool.eqb b s) eqn:Eb.
      - cbn [existsb fst orb]. lia.
      - replace b with (negb s) by (destruct s, b; try reflexivity; discriminate). rewrite F2. reflexivity. }
    rewrite !N. replace (0 <? dl) with true by (unfold dl; lia). reflexivity. }
  rewrite E4. cbn [bind]. clear E4.
  assert (E5 : step (EArrive s 0) (mkSys P3 W1 (now + 1 + dl) L1) =
    Ok (mkSys (upd (negb s) c P3) (upd s [] W1) (now + 1 + dl) (L1 ++ [LDllpRx (negb s) d]))).
  { cbn [step s_port s_flight s_now s_log]. replace (W1 s) with [(now + 1 + dl, PDllp d)] by (unfold W1; rewrite upd_same; reflexivity).
    cbn [nth_error]. rewrite Z.eqb_refl. replace (P3 (negb s)) with (f (negb s)).
    2:{ unfold P3, upd. destruct s; cbn [negb Bool.eqb] in *; auto. }
    cbn [ext_recv]. rewrite H. reflexivity. }
  rewrite E5. cbn [bind]. eexists. split; [reflexivity|]. intros b. cbn [s_flight s_port].
  unfold upd, W1, P3. destruct s, b; cbn [negb Bool.eqb] in *; auto.
Qed.

Lemma quiet_ext st f g : (forall s, g s = f s) -> quiet st f -> quiet st g.
Proof. intros E Q s. rewrite E. apply Q. Qed.

Definition pair_fn {A} (x y : A) : bool -> A := fun s => if s then x else y.
Ltac one s :=
  match goal with Q : quiet ?st ?f |- _ =>
    let Q' := fresh "Q" in let st' := fresh "st" in let E' := fresh "R" in
    destruct (round st f s _ Q eq_refl eq_refl eq_refl eq_refl eq_refl eq_refl) as (st' & E' & Q'); clear Q;
    match type of Q' with quiet _ ?g =>
      let a := eval lazy in (g true) in let b := eval lazy in (g false) in
      assert (Q : quiet st' (pair_fn a b)) by (refine (quiet_ext _ _ _ _ Q'); intros []; reflexivity); clear Q'
    end
  end.
Ltac glue :=
  repeat match goal with
  | A : run ?x ?s = Ok ?t, B : run ?y ?t = Ok ?u |- _ =>
    let C := fresh in assert (C : run (x ++ y) s = Ok u) by (rewrite run_app, A; exact B); clear A B
  end.
Lemma initialises ia ib da db steps s0 : link_new ia ib da db steps = Ok s0 -> exists es st,
  run es s0 = Ok st /\ forall s, c_initialized (p_ch (s_port st s)) = true.
Proof.
  unfold link_new, port_new, chan_new. intros H.
  repeat match type of H with
  | context [fcs_new ?b ?x] => let v := fresh "v" in destruct (fcs_new b x) as [v|] eqn:?; [cbn [bind] in H|discriminate]
  end.
  apply Ok_inj in H. subst s0.
  match goal with |- context [run _ (mkSys ?f ?g ?n ?l)] =>
    set (s0 := mkSys f g n l); assert (Q : quiet s0 f) by (intros s; destruct s; repeat split; reflexivity) end.
  clearbody s0.
  do 3 one true. glue. do 3 one false. glue. do 3 one true. glue. one false. glue.
  match goal with R : run ?es s0 = Ok ?st |- _ => exists es, st; split; [exact R|] end.
  intros s. destruct (Q s) as (_ & -> & _). destruct s; reflexivity.
Qed.
