From Verif Require Import Base BaseProofs ModelTlp SpecTlp ModelDllp ModelPort SpecPort ProofsPort ProofsPortInv.
From Coq Require Import Sorting.Sorted.

(** ** What [tx_select] does *)
Inductive selected (p p' : port) : option packet -> Prop :=
| sel_none : teq p p' -> req p p' -> selected p p' None
| sel_ack : teq p p' -> req p p' ->
    selected p p' (Some (PDllp (if p_nak p then create_nak (Z.land (p_next_rx p - 1) 0xfff)
                                else create_ack (Z.land (p_next_rx p - 1) 0xfff))))
| sel_fc code ty : teq p p' -> req p p' -> dllp_fc_type code = Ok ty -> In code d_fc_types ->
    selected p p' (Some (PDllp (fc_dllp code ty (p_ch p))))
| sel_tlp t q : teq p q -> req p q -> tx_tlp q = (p', Some (PTlp t)) -> req q p' -> selected p p' (Some (PTlp t)).

Lemma tx_tlp_cases p p' o : tx_tlp p = (p', o) ->
  p_busy p' = p_busy p /\ p_delay p' = p_delay p /\
  ((o = None /\ p' = p) \/ exists t, o = Some (PTlp t) /\ req p p').
Proof.
  unfold tx_tlp. destruct (p_txq p); intros H; injection H as <- <-.
  - auto.
  - repeat split. right. eexists. split; [reflexivity|]. constructor; reflexivity.
Qed.
Lemma update_code_ok ty : dllp_fc_type (update_code ty) = Ok ty /\ In (update_code ty) d_fc_types.
Proof. destruct ty; split; try reflexivity; cbn; tauto. Qed.
Lemma init_code_ok b ty : dllp_fc_type (init_code b ty) = Ok ty /\ In (init_code b ty) d_fc_types.
Proof. destruct b, ty; split; try reflexivity; cbn; tauto. Qed.

Lemma tx_select_cases now p p' o : tx_select now p = (p', o) ->
  p_busy p' = p_busy p /\ p_delay p' = p_delay p /\ selected p p' o.
Proof.
  unfold tx_select. destruct (p_send_ack p).
  { intros H. injection H as <- <-. repeat split. apply sel_ack; constructor; reflexivity. }
  assert (Tlp : forall q, teq p q -> req p q -> p_busy q = p_busy p -> p_delay q = p_delay p ->
     tx_tlp q = (p', o) -> p_busy p' = p_busy p /\ p_delay p' = p_delay p /\ selected p p' o).
  { intros q Ht Hr Hb Hd H. destruct (tx_tlp_cases _ _ _ H) as (B & D & [(E & E')|(t & E & Q)]).
    - subst. repeat split; try congruence. apply sel_none; auto.
    - subst. repeat split; try congruence. eapply sel_tlp; eauto. }
  destruct (p_send_fc p || negb (p_fc_initialized p) && is_nil (p_txq p)).
  2:{ intros H. apply (Tlp p); auto using teq_refl, req_refl. }
  assert (U : forall q d, (if p_send_fc p then tx_update now p else (p, None)) = (q, d) ->
     p_busy q = p_busy p /\ p_delay q = p_delay p /\ teq p q /\ req p q /\
     match d with Some d => exists ty, d = fc_dllp (update_code ty) ty (p_ch p) | None => q = p end).
  { intros q d. destruct (p_send_fc p).
    - unfold tx_update. destruct (update_due now (p_ch p)); intros H; injection H as <- <-.
      + split; [reflexivity|]. split; [reflexivity|]. split; [constructor; reflexivity|]. split; [constructor; reflexivity|eauto].
      + split; [reflexivity|]. split; [reflexivity|]. split; [apply teq_refl|]. split; [apply req_refl|reflexivity].
    - intros H; injection H as <- <-. split; [reflexivity|]. split; [reflexivity|]. split; [apply teq_refl|]. split; [apply req_refl|reflexivity]. }
  destruct (if p_send_fc p then tx_update now p else (p, None)) as [q d] eqn:E.
  destruct (U q d eq_refl) as (B & D & Ht & Hr & Hd). clear U. destruct d as [d|].
  - intros H. injection H as <- <-. destruct Hd as (ty & ->). repeat split; auto.
    destruct (update_code_ok ty). apply sel_fc; auto.
  - subst q. destruct (negb (p_fc_initialized p)).
    + cbn. intros H. injection H as <- <-. repeat split.
      destruct (init_code_ok (c_fi1 (p_ch p)) (p_fc_init_type p)).
      apply sel_fc; auto; constructor; reflexivity.
    + intros H. apply (Tlp (set_p_send_fc false p)); auto; constructor; reflexivity.
Qed.

(** ** Timing *)
Definition dly (p : port) : Z := Z.max (p_delay p) 1.
Record tinv (now : Z) (p : port) (fl : list (Z * packet)) : Prop := mkT {
  t_sorted : StronglySorted Z.lt (map fst fl);
  t_ge : Forall (fun x => now <= fst x) fl;
  t_busy : match p_busy p with
           | Some (t, _) => now <= t /\ Forall (fun x => fst x < t + dly p) fl
           | None => Forall (fun x => fst x <= now + dly p) fl
           end }.
Lemma tinv_port now p q fl : p_busy q = p_busy p -> p_delay q = p_delay p -> tinv now p fl -> tinv now q fl.
Proof. intros B D []. constructor; auto. unfold dly in *. rewrite B, D. exact t_busy0. Qed.
Lemma tinv_start now p fl k w : p_busy p = None -> tinv now p fl ->
  tinv now (set_p_busy (Some (now + Z.max w 1, k)) p) fl.
Proof.
  intros E []. constructor; auto. cbn [p_busy set_p_busy]. rewrite E in t_busy0. split; [lia|].
  eapply Forall_impl; [|exact t_busy0]. cbn. intros a H. unfold dly in *. cbn [p_delay set_p_busy]. lia.
Qed.
Lemma sorted_snoc l x : StronglySorted Z.lt l -> Forall (fun y => y < x) l -> StronglySorted Z.lt (l ++ [x]).
Proof.
  induction l as [|y l IH]; cbn; intros S F.
  - constructor; constructor.
  - apply StronglySorted_inv in S. destruct S as [S Fy]. pose proof (Forall_inv F). pose proof (Forall_inv_tail F).
    constructor; [apply IH; auto|]. apply Forall_app. split; auto.
Qed.
Lemma tinv_done now p fl t k : p_busy p = Some (t, k) -> t = now -> tinv now p fl ->
  tinv now (set_p_busy None p) (fl ++ [(t + dly p, k)]).
Proof.
  intros E -> []. rewrite E in t_busy0. destruct t_busy0 as [H F]. unfold dly in *.
  constructor; cbn [p_busy set_p_busy].
  - rewrite map_app. apply sorted_snoc; auto. clear - F. induction F; cbn; constructor; auto.
  - apply Forall_app. split; auto. constructor; cbn; [lia|constructor].
  - apply Forall_app. split; [eapply Forall_impl; [|exact F]; cbn; intros; unfold dly; cbn; lia|].
    constructor; [unfold dly; cbn; lia|constructor].
Qed.
Lemma tinv_fifo now p fl i t k : tinv now p fl -> nth_error fl i = Some (t, k) -> t = now -> i = O /\ fl = (t, k) :: tl fl.
Proof.
  intros [] N ->. destruct fl as [|[t0 k0] fl]; [destruct i; discriminate|].
  destruct i as [|i]; [cbn in N; injection N as -> ->; auto|]. exfalso. cbn in N.
  cbn in t_sorted0. apply StronglySorted_inv in t_sorted0. destruct t_sorted0 as [_ F].
  apply nth_error_In in N. rewrite Forall_forall in F. apply (in_map fst) in N. specialize (F _ N). cbn in F.
  apply Forall_inv in t_ge0. cbn in t_ge0. lia.
Qed.
Lemma tinv_drop now p x fl : tinv now p (x :: fl) -> tinv now p fl.
Proof.
  intros []. constructor.
  - cbn in t_sorted0. apply StronglySorted_inv in t_sorted0. tauto.
  - apply Forall_inv_tail in t_ge0. exact t_ge0.
  - destruct (p_busy p) as [[]|]; [destruct t_busy0 as [A B]; split; auto|rename t_busy0 into B];
    apply Forall_inv_tail in B; exact B.
Qed.
Lemma tinv_tick now p fl n : 0 < n -> existsb (fun x => fst x <? now + n) fl = false ->
  match p_busy p with Some (t, _) => t <? now + n | None => false end = false ->
  tinv now p fl -> tinv (now + n) p fl.
Proof.
  intros Hn E B []. constructor; auto.
  - rewrite Forall_forall. intros x Hx.
    destruct (Z.ltb_spec (fst x) (now + n)) as [L|L]; [|exact L].
    rewrite <- not_true_iff_false, existsb_exists in E. exfalso. apply E. exists x. split; auto. lia.
  - destruct (p_busy p) as [[t k]|].
    + destruct t_busy0. split; [lia|auto].
    + eapply Forall_impl; [|exact t_busy0]. cbn. intros; lia.
Qed.

(** ** The whole link *)
Definition dinv (adv : bool -> bool -> fc_type -> Z) (st : sys) (s : bool) : Prop :=
  dirinv (adv (negb s)) (s_port st s) (s_port st (negb s)) (on_wire st s) (on_wire st (negb s))
    (gated s (s_log st)) (transmitted s (s_log st)) (received (negb s) (s_log st)) (handled (negb s) (s_log st))
    (released (negb s) (s_log st)) /\ tinv (s_now st) (s_port st s) (s_flight st s).
Definition sysinv adv (st : sys) : Prop := forall s, dinv adv st s.

Lemma gated_app s l m : gated s (l ++ m) = gated s l ++ gated s m. Proof. apply flat_map_app. Qed.
Lemma transmitted_app s l m : transmitted s (l ++ m) = transmitted s l ++ transmitted s m. Proof. apply flat_map_app. Qed.
Lemma received_app s l m : received s (l ++ m) = received s l ++ received s m. Proof. apply flat_map_app. Qed.
Lemma handled_app s l m : handled s (l ++ m) = handled s l ++ handled s m. Proof. apply flat_map_app. Qed.
Lemma released_app s l m n : released s (l ++ m) n = released s l n || released s m n. Proof. apply existsb_app. Qed.

Definition wire (fl : list (Z * packet)) (p : port) : list packet :=
  map snd fl ++ match p_busy p with Some (_, k) => [k] | None => [] end.

(** An event of side [a]: its port becomes [p], the log grows by [l]. *)
Lemma sys_port_inv adv st a p l :
  dirinv (adv (negb a)) p (s_port st (negb a)) (wire (s_flight st a) p) (on_wire st (negb a))
    (gated a (s_log st ++ l)) (transmitted a (s_log st ++ l)) (received (negb a) (s_log st ++ l))
    (handled (negb a) (s_log st ++ l)) (released (negb a) (s_log st ++ l)) ->
  dirinv (adv a) (s_port st (negb a)) p (on_wire st (negb a)) (wire (s_flight st a) p)
    (gated (negb a) (s_log st ++ l)) (transmitted (negb a) (s_log st ++ l)) (received a (s_log st ++ l))
    (handled a (s_log st ++ l)) (released a (s_log st ++ l)) ->
  tinv (s_now st) p (s_flight st a) -> tinv (s_now st) (s_port st (negb a)) (s_flight st (negb a)) ->
  sysinv adv (sys_port a p l st).
Proof.
  intros H1 H2 H3 H4 s. unfold dinv, sys_port, on_wire in *; cbn [s_port s_flight s_now s_log].
  unfold wire in *. destruct a, s; cbn [negb upd Bool.eqb] in *; split; assumption.
Qed.
Lemma sys_quiet adv st a p : teq (s_port st a) p -> req (s_port st a) p ->
  p_busy p = p_busy (s_port st a) -> p_delay p = p_delay (s_port st a) ->
  sysinv adv st -> sysinv adv (sys_port a p [] st).
Proof.
  intros Ht Hr Hb Hd I. destruct (I a) as [D1 T1]. destruct (I (negb a)) as [D2 T2]. unfold dinv in *.
  rewrite negb_involutive in *.
  assert (W : wire (s_flight st a) p = on_wire st a) by (unfold wire, on_wire; rewrite Hb; reflexivity).
  apply sys_port_inv; rewrite ?app_nil_r, ?W; auto.
  - eapply dir_teq; eauto.
  - eapply dir_req; eauto.
  - eapply tinv_port; eauto.
Qed.
Ltac logs := rewrite ?gated_app, ?transmitted_app, ?received_app, ?handled_app;
  cbn [log_tx gated transmitted received handled flat_map app]; rewrite ?eqb_reflx, ?eqb_negb1, ?eqb_negb2, ?app_nil_r; cbn [app]; rewrite ?app_nil_r.
Lemma rel_same s l e n : match e with LRelease _ _ => False | _ => True end ->
  released s l n = released s (l ++ [e]) n.
Proof. intros H. rewrite released_app. destruct e; try contradiction; cbn; rewrite orb_false_r; reflexivity. Qed.

Lemma wire_busy fl p b : wire fl (set_p_busy b p) = map snd fl ++ match b with Some (_, k) => [k] | None => [] end.
Proof. reflexivity. Qed.
Lemma teq_trans p q r : teq p q -> teq q r -> teq p r.
Proof. intros [] []. constructor; congruence. Qed.
Lemma req_trans p q r : req p q -> req q r -> req p r.
Proof. intros [] []. constructor; congruence. Qed.
Lemma teq_busy p b : teq p (set_p_busy b p). Proof. constructor; reflexivity. Qed.
Lemma req_busy p b : req p (set_p_busy b p). Proof. constructor; reflexivity. Qed.

Lemma on_wire_idle st a : p_busy (s_port st a) = None -> on_wire st a = map snd (s_flight st a).
Proof. intros H. unfold on_wire. rewrite H. apply app_nil_r. Qed.

Lemma step_tx adv st a w : sysinv adv st -> exists st', step (ETx a w) st = Ok st' /\ sysinv adv st'.
Proof.
  intros I. cbn [step]. destruct (p_busy (s_port st a)) as [b|] eqn:Eb; [eauto|].
  destruct (tx_select (s_now st) (s_port st a)) as [p' o] eqn:Es.
  destruct (tx_select_cases _ _ _ _ Es) as (B & D & Sel).
  destruct (I a) as [D1 T1]. destruct (I (negb a)) as [D2 T2]. unfold dinv in D1, D2. rewrite negb_involutive in D2.
  rewrite (on_wire_idle st a Eb) in D1, D2.
  assert (Tt : forall k, tinv (s_now st) (set_p_busy (Some (s_now st + Z.max w 1, k)) p') (s_flight st a)).
  { intros k. apply tinv_start; [congruence|]. eapply tinv_port; eauto. }
  destruct Sel as [Ht Hr|Ht Hr|code ty Ht Hr Ec Ei|t q Ht Hr Htx Hr'].
  - eexists. split; [reflexivity|]. apply sys_quiet; auto.
  - eexists. split; [reflexivity|]. pose proof (d_nak _ _ _ _ _ _ _ _ _ _ D2) as Nk. rewrite Nk.
    assert (Ok1 : pkt_ok (PDllp (create_ack (Z.land (p_next_rx (s_port st a) - 1) 0xfff)))).
    { left. split; [reflexivity|]. cbn [d_seq create_ack]. rewrite land_fff. apply Z.mod_pos_bound. reflexivity. }
    apply sys_port_inv; auto; rewrite wire_busy; logs.
    + eapply dir_rel; [intros n; apply rel_same; exact Logic.I|].
      eapply dir_teq; [eapply teq_trans; [exact Ht|apply teq_busy]|]. apply dir_out_dllp; auto.
    + eapply dir_rel; [intros n; apply rel_same; exact Logic.I|].
      eapply dir_req; [eapply req_trans; [exact Hr|apply req_busy]|]. apply dir_emit_ack; auto.
  - eexists. split; [reflexivity|].
    assert (Ok1 : pkt_ok (PDllp (fc_dllp code ty (p_ch (s_port st a))))) by (right; auto).
    apply sys_port_inv; auto; rewrite wire_busy; logs.
    + eapply dir_rel; [intros n; apply rel_same; exact Logic.I|].
      eapply dir_teq; [eapply teq_trans; [exact Ht|apply teq_busy]|]. apply dir_out_dllp; auto.
    + eapply dir_rel; [intros n; apply rel_same; exact Logic.I|].
      eapply dir_req; [eapply req_trans; [exact Hr|apply req_busy]|]. apply dir_emit_fc; auto.
  - eexists. split; [reflexivity|].
    apply sys_port_inv; auto; rewrite wire_busy; logs.
    + eapply dir_rel; [intros n; apply rel_same; exact Logic.I|].
      eapply dir_teq; [apply teq_busy|]. eapply dir_tx_tlp; [exact Htx|]. eapply dir_teq; eauto.
    + eapply dir_rel; [intros n; apply rel_same; exact Logic.I|].
      eapply dir_req; [eapply req_trans; [exact Hr|eapply req_trans; [exact Hr'|apply req_busy]]|]. apply dir_back_tlp; auto.
Qed.

Lemma step_done adv st a : sysinv adv st -> exists st', step (ETxDone a) st = Ok st' /\ sysinv adv st'.
Proof.
  intros I. cbn [step]. destruct (p_busy (s_port st a)) as [[t k]|] eqn:Eb; [|eauto].
  destruct (Z.eqb_spec t (s_now st)) as [E|]; [|eauto]. eexists. split; [reflexivity|].
  destruct (I a) as [D1 T1]. destruct (I (negb a)) as [D2 T2]. unfold dinv in D1, D2. rewrite negb_involutive in D2.
  set (p' := set_p_busy None (s_port st a)). set (f' := _ ++ [_]).
  assert (W : on_wire st a = wire f' p').
  { unfold on_wire, wire, f', p'. rewrite Eb. cbn [p_busy set_p_busy]. rewrite map_app. cbn. rewrite app_nil_r. reflexivity. }
  assert (T1' : tinv (s_now st) p' f') by (eapply tinv_done; eauto).
  rewrite W in D1, D2.
  apply (dir_teq _ _ p') in D1; [|constructor; reflexivity].
  apply (dir_req _ _ _ p') in D2; [|constructor; reflexivity].
  clearbody p' f'. intros s. unfold dinv, on_wire in *. cbn [s_port s_flight s_now s_log]. unfold wire in *.
  destruct a, s; cbn [negb upd Bool.eqb] in *; split; assumption.
Qed.

Lemma ext_recv_busy k p p' : ext_recv k p = Ok p' -> p_busy p' = p_busy p /\ p_delay p' = p_delay p.
Proof.
  destruct k as [t|d]; cbn [ext_recv].
  - destruct (seq t =? p_next_rx p).
    + destruct (rx_process_tlp_fc (tlp_copy t) (p_ch p)); [|discriminate]. cbn [bind]. intros H. injection H as <-. auto.
    + destruct (_ <? 2048); [|destruct (p_nak p)]; intros H; injection H as <-; auto.
  - unfold handle_dllp. destruct (d_type d =? D_NOP); [intros H; injection H as <-; auto|].
    destruct (zmem (d_type d) d_seq_types).
    + destruct (_ >? 2048); [intros H; injection H as <-; auto|].
      destruct (_ >? 2048); [intros H; injection H as <-; auto|].
      destruct (purge _ _ _) as [[a r]|]; [|discriminate]. cbn [bind].
      destruct (d_type d =? D_NAK); [discriminate|]. intros H; injection H as <-; auto.
    + destruct (zmem (d_type d) d_fc_types); [|discriminate].
      destruct (d_vc d =? 0); [|intros H; injection H as <-; auto].
      destruct (handle_fc_dllp d (p_ch p)); [|discriminate]. cbn [bind]. intros H; injection H as <-; auto.
Qed.
Lemma remove_nth_0 {A} (l : list A) x r : l = x :: r -> remove_nth 0 l = r.
Proof. intros ->. reflexivity. Qed.
Lemma step_arrive adv st a i : sysinv adv st -> exists st', step (EArrive a i) st = Ok st' /\ sysinv adv st'.
Proof.
  intros I. cbn [step]. destruct (nth_error (s_flight st a) i) as [[t k]|] eqn:En; [|eauto].
  destruct (Z.eqb_spec t (s_now st)) as [E|]; [|eauto].
  destruct (I a) as [D1 T1]. destruct (I (negb a)) as [D2 T2]. unfold dinv in D1, D2. rewrite negb_involutive in D2.
  destruct (tinv_fifo _ _ _ _ _ _ T1 En E) as (-> & Ef).
  set (fl := tl (s_flight st a)) in *. clearbody fl.
  assert (Hrem : remove_nth 0 (s_flight st a) = fl) by (rewrite Ef; reflexivity). rewrite Hrem.
  assert (T1' : tinv (s_now st) (s_port st a) fl) by (rewrite Ef in T1; eapply tinv_drop; exact T1).
  set (w := wire fl (s_port st a)).
  assert (W : on_wire st a = k :: w) by (unfold on_wire, w, wire; rewrite Ef; reflexivity).
  rewrite W in D1, D2.
  assert (Fin : forall p' l,
    dirinv (adv (negb a)) (s_port st a) p' w (on_wire st (negb a))
      (gated a (s_log st ++ l)) (transmitted a (s_log st ++ l)) (received (negb a) (s_log st ++ l))
      (handled (negb a) (s_log st ++ l)) (released (negb a) (s_log st ++ l)) ->
    dirinv (adv a) p' (s_port st a) (on_wire st (negb a)) w
      (gated (negb a) (s_log st ++ l)) (transmitted (negb a) (s_log st ++ l)) (received a (s_log st ++ l))
      (handled a (s_log st ++ l)) (released a (s_log st ++ l)) ->
    p_busy p' = p_busy (s_port st (negb a)) -> p_delay p' = p_delay (s_port st (negb a)) ->
    sysinv adv (mkSys (upd (negb a) p' (s_port st)) (upd a fl (s_flight st)) (s_now st) (s_log st ++ l))).
  { intros p' l G1 G2 G3 G4.
    assert (T2' : tinv (s_now st) p' (s_flight st (negb a))) by (eapply tinv_port; eauto).
    assert (W2 : wire (s_flight st (negb a)) p' = on_wire st (negb a)) by (unfold wire, on_wire; rewrite G3; reflexivity).
    intros s. unfold dinv. unfold w, wire, on_wire in *. cbn [s_port s_flight s_now s_log].
    clear - G1 G2 T1' T2' T2 G3.
    destruct a, s; cbn [negb upd Bool.eqb] in *; rewrite ?G3; split; assumption. }
  clear T1 T2 T1' Hrem En I. destruct k as [tl_|d].
  - destruct (dir_recv_tlp _ _ _ _ _ _ _ _ _ _ _ D1) as (Hs & R' & Hrc & Ht & Hd).
    rewrite Hrc. cbn [bind]. eexists. split; [reflexivity|].
    unfold log_rx. rewrite Hs, Z.eqb_refl.
    apply Fin; logs.
    + eapply dir_rel; [intros n; apply rel_same; exact Logic.I|]. exact Hd.
    + eapply dir_rel; [intros n; apply rel_same; exact Logic.I|].
      eapply dir_teq; [exact Ht|]. eapply dir_back_ignore; exact D2.
    + apply ext_recv_busy in Hrc. tauto.
    + apply ext_recv_busy in Hrc. tauto.
  - assert (Pk : pkt_ok (PDllp d)) by (apply (Forall_inv (d_out _ _ _ _ _ _ _ _ _ _ D1))).
    assert (Hd : exists T', handle_dllp d (s_port st (negb a)) = Ok T' /\ req (s_port st (negb a)) T' /\
       dirinv (adv a) T' (s_port st a) (on_wire st (negb a)) w
      (gated (negb a) (s_log st)) (transmitted (negb a) (s_log st)) (received a (s_log st))
      (handled a (s_log st)) (released a (s_log st))).
    { destruct Pk as [[P1 _]|[P1 P2]]; [eapply dir_recv_ack; eauto|eapply dir_recv_fc; eauto]. }
    destruct Hd as (T' & Hh & Hr & Hd). cbn [ext_recv]. rewrite Hh. cbn [bind]. eexists. split; [reflexivity|].
    unfold log_rx. apply Fin; logs.
    + eapply dir_rel; [intros n; apply rel_same; exact Logic.I|]. eapply dir_req; [exact Hr|].
      eapply dir_out_drop; exact D1.
    + eapply dir_rel; [intros n; apply rel_same; exact Logic.I|]. exact Hd.
    + apply (ext_recv_busy (PDllp d)) in Hh. tauto.
    + apply (ext_recv_busy (PDllp d)) in Hh. tauto.
Qed.

Lemma step_inv adv e st : sysinv adv st -> exists st', step e st = Ok st' /\ sysinv adv st'.
Proof.
  intros I. destruct e as [a t|a i|a w|a|a i|a|a n|a|a|a|n]; auto using step_tx, step_done, step_arrive; cbn [step];
    try (destruct (I a) as [D1 T1]; destruct (I (negb a)) as [D2 T2]; unfold dinv in D1, D2; rewrite negb_involutive in D2).
  - destruct (tx_gate t (s_port st a)) as [p|] eqn:E; [|eauto]. eexists. split; [reflexivity|].
    assert (B : p_busy p = p_busy (s_port st a) /\ p_delay p = p_delay (s_port st a) /\ req (s_port st a) p).
    { unfold tx_gate in E. destruct (get_fc_type t); [|discriminate]. destruct (_ && _); [|discriminate].
      injection E as <-. split; [reflexivity|]. split; [reflexivity|]. constructor; try reflexivity.
      intros k ty. cbn [p_ch set_p_pend set_p_ch]. unfold tx_consume_fc. rewrite fcof_on.
      destruct (fc_eqb ty a0); [|reflexivity]. destruct k; unfold f_tx_consume; destruct tx_is_infinite; reflexivity. }
    destruct B as (B & D & Hr).
    assert (W : wire (s_flight st a) p = on_wire st a) by (unfold wire, on_wire; rewrite B; reflexivity).
    apply sys_port_inv; rewrite ?W; logs; auto.
    + eapply dir_rel; [intros n; apply rel_same; exact Logic.I|]. eapply dir_gate; eauto.
    + eapply dir_rel; [intros n; apply rel_same; exact Logic.I|]. eapply dir_req; eauto.
    + eapply tinv_port; eauto.
  - destruct (p_txq (s_port st a)) as [|] eqn:Eq; [|eauto].
    destruct (nth_error (p_pend (s_port st a)) i) as [t|] eqn:En; [|eauto].
    eexists. split; [reflexivity|]. apply sys_port_inv; rewrite ?app_nil_r; auto; try (eapply tinv_port; [| |exact T1]; reflexivity).
    + apply dir_put; auto.
    + eapply dir_req; [|exact D2]. constructor; reflexivity.
  - destruct (p_rxq (s_port st a)) as [|[m t] r] eqn:Eq; [eauto|].
    eexists. split; [reflexivity|]. apply sys_port_inv; logs; auto; try (eapply tinv_port; [| |exact T1]; reflexivity).
    + eapply dir_rel; [intros n; apply rel_same; exact Logic.I|]. eapply dir_teq; [|exact D1]. constructor; reflexivity.
    + eapply dir_rel; [intros n; apply rel_same; exact Logic.I|]. eapply dir_handle; eauto.
  - destruct (n <? c_tok (p_ch (s_port st a)))%nat eqn:Ln; [|eauto]. apply Nat.ltb_lt in Ln.
    rewrite (d_tok _ _ _ _ _ _ _ _ _ _ D2) in Ln.
    pose proof (dir_release _ _ _ n _ _ _ _ _ _ _ Ln D2) as Dr.
    assert (Ra : forall m, also (released a (s_log st)) n m = released a (s_log st ++ [LRelease a n]) m).
    { intros m. rewrite released_app. cbn. rewrite eqb_reflx, orb_false_r. reflexivity. }
    assert (Rb : forall m, released (negb a) (s_log st) m = released (negb a) (s_log st ++ [LRelease a n]) m).
    { intros m. rewrite released_app. cbn. rewrite eqb_negb2. cbn. rewrite orb_false_r. reflexivity. }
    destruct (rx_release_fc_token n (p_ch (s_port st a))) as [c|].
    + destruct Dr as [Ht Dr]. eexists. split; [reflexivity|]. apply sys_port_inv; logs; auto; try (eapply tinv_port; [| |exact T1]; reflexivity).
      * eapply dir_rel; [exact Rb|]. eapply dir_teq; [exact Ht|exact D1].
      * eapply dir_rel; [exact Ra|]. exact Dr.
    + eexists. split; [reflexivity|]. apply sys_port_inv; logs; auto; try (eapply tinv_port; [| |exact T1]; reflexivity).
      * eapply dir_rel; [exact Rb|exact D1].
      * eapply dir_rel; [exact Ra|exact Dr].
  - destruct (p_ack_timer (s_port st a)); [|eauto]. eexists. split; [reflexivity|].
    apply sys_quiet; auto; destruct (p_nak _); try reflexivity; constructor; reflexivity.
  - destruct (p_fc_timer (s_port st a)); [|eauto]. eexists. split; [reflexivity|].
    apply sys_quiet; auto; constructor; reflexivity.
  - eexists. split; [reflexivity|]. apply sys_quiet; auto; constructor; reflexivity.
  - match goal with |- context [if ?b then _ else _] => destruct b eqn:E end; [|eauto].
    apply andb_prop in E; destruct E as [E E5]. apply andb_prop in E; destruct E as [E E4].
    apply andb_prop in E; destruct E as [E E3]. apply andb_prop in E; destruct E as [E E2].
    rewrite negb_true_iff in E2, E3, E4, E5.
    eexists. split; [reflexivity|]. intros s. destruct (I s) as [D T]. split; [exact D|].
    cbn [s_now s_port s_flight]. apply tinv_tick; [lia| | |exact T]; destruct s; assumption.
Qed.
Lemma run_inv adv es : forall st, sysinv adv st -> exists st', run es st = Ok st' /\ sysinv adv st'.
Proof.
  induction es as [|e es IH]; intros st I; cbn [run]; [eauto|].
  destruct (step_inv adv e st I) as (st' & -> & I'). cbn [bind]. auto.
Qed.

(** ** The start *)
Definition adv_of (ia ib : per3 (Z * Z)) (s k : bool) (ty : fc_type) : Z := advertised ia ib k ty s.
Lemma fcs_new_ok bits i f : fcs_new bits i = Ok f -> f = mkFcs bits 0 0 0 (Z.max i 0) (Z.max i 0) 0 /\ Z.max i 0 < 2 ^ (bits - 1).
Proof. unfold fcs_new. destruct (Z.max i 0 >=? 2 ^ (bits - 1)) eqn:E; [discriminate|]. intros H. injection H as <-. split; [reflexivity|lia]. Qed.
Lemma chan_new_ok i act c : chan_new i act = Ok c ->
  c_active c = act /\ c_fi1 c = false /\ c_fi1t c = mk3 false false false /\ c_fi2 c = false /\ c_initialized c = false /\
  c_rel c = [] /\ c_tok c = O /\
  forall (k : bool) ty, let v := Z.max 0 ((if k then snd else fst) (get3 ty i)) in
    fcof k ty c = mkFcs (bits k) 0 0 0 v v 0 /\ v < width k / 2.
Proof.
  unfold chan_new. intros H.
  repeat match type of H with bind (fcs_new ?b ?x) _ = _ =>
    let E := fresh in destruct (fcs_new b x) eqn:E; [apply fcs_new_ok in E; destruct E as [-> ?]|discriminate]; cbn [bind] in H end.
  injection H as <-. repeat split; rewrite ?(Z.max_comm 0); destruct k, ty; cbn in *; try reflexivity; assumption.
Qed.
Lemma dir_adv adv adv' T R out back g tx rx hd rel : (forall k ty, adv' k ty = adv k ty) ->
  dirinv adv T R out back g tx rx hd rel -> dirinv adv' T R out back g tx rx hd rel.
Proof. intros E D. pose proof (d_fc _ _ _ _ _ _ _ _ _ _ D) as F. destruct D. constructor; auto. intros k ty. rewrite E. apply F. Qed.
Lemma link_new_inv ia ib da db steps s0 : link_new ia ib da db steps = Ok s0 -> sysinv (adv_of ia ib) s0.
Proof.
  unfold link_new, port_new. destruct (chan_new ia true) as [ca|] eqn:Ea; [|discriminate]. cbn [bind].
  destruct (chan_new ib true) as [cb|] eqn:Eb; [|discriminate]. cbn [bind]. intros H. injection H as <-.
  assert (G : forall (pT pR : port) iR, 
     p_next_tx pT = 0 -> p_ackd pT = 0xfff -> p_retry pT = [] -> p_txq pT = [] -> p_pend pT = [] ->
     p_next_rx pR = 0 -> p_nak pR = false -> p_rxq pR = [] ->
     (exists i, chan_new i true = Ok (p_ch pT)) -> chan_new iR true = Ok (p_ch pR) ->
     dirinv (fun (k : bool) ty => Z.max 0 ((if k then snd else fst) (get3 ty iR))) pT pR [] [] [] [] [] [] (fun _ => false)).
  { clear. intros pT pR iR E1 E2 E3 E4 E5 E6 E7 E8 (i & ET) ER.
    apply chan_new_ok in ET. apply chan_new_ok in ER.
    destruct ET as (A1 & A2 & A3 & A4 & A5 & A6 & A7 & A8). destruct ER as (B1 & B2 & B3 & B4 & B5 & B6 & B7 & B8).
    constructor; rewrite ?E1, ?E2, ?E3, ?E4, ?E5, ?E6, ?E7, ?E8; auto.
    - exists []. auto.
    - exists O. repeat split; auto. cbn. lia.
    - rewrite A1, A2, A3, A4, A5. repeat split; auto.
    - intros k ty. cbv zeta. destruct (A8 k ty) as [Af _]. destruct (B8 k ty) as [Bf Bl].
      rewrite Af, Bf, A3. cbn [f_bits rx_init rx_alloc rx_recv tx_init tx_cons tx_limit freed sum_credits fc_vals flat_map chain].
      split; [split; [lia|exact Bl]|]. split; [reflexivity|]. split; [reflexivity|]. split; [reflexivity|].
      split; [symmetry; apply annd_zero; split; [lia|exact Bl]|]. split; [symmetry; apply cnt_zero|].
      exists 0. split; [lia|]. split; [lia|]. split; [right; lia|].
      destruct ty; cbn; auto. }
  intros s. unfold dinv, on_wire. cbn [s_port s_flight s_now s_log map app].
  split; [|destruct s; cbn; constructor; cbn; constructor].
  destruct s; cbn [negb p_busy].
  - eapply dir_adv; [|apply G with (iR := ib); try reflexivity; eauto].
    intros k ty. unfold adv_of, advertised. destruct (get3 ty ib), k; reflexivity.
  - eapply dir_adv; [|apply G with (iR := ia); try reflexivity; eauto].
    intros k ty. unfold adv_of, advertised. destruct (get3 ty ia), k; reflexivity.
Qed.
