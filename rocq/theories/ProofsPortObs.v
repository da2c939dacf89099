From Verif Require Import Base BaseProofs ModelTlp SpecTlp ModelDllp ModelPort SpecPort ProofsPort ProofsPortInv ProofsPortSys.

(** ** The effect of a step as seen in the log *)
Record same_tx (p q : port) : Prop := mkSame {
  x_retry : p_retry q = p_retry p; x_ackd : p_ackd q = p_ackd p; x_ntx : p_next_tx q = p_next_tx p;
  x_fi2 : c_fi2 (p_ch q) = c_fi2 (p_ch p);
  x_lim : forall k ty, tx_limit (fcof k ty (p_ch q)) = tx_limit (fcof k ty (p_ch p)) }.
Lemma same_tx_refl p : same_tx p p. Proof. constructor; reflexivity. Qed.
Lemma teq_same p q : teq p q -> same_tx p q.
Proof.
  intros []. constructor; auto. intros k ty. specialize (t_fc k ty). unfold txp in t_fc. congruence.
Qed.
Lemma same_trans p q r : same_tx p q -> same_tx q r -> same_tx p r.
Proof. intros [] []. constructor; congruence. Qed.
Definition wire_eff (a : bool) (l : list entry) (w w' : list packet) : Prop :=
  match l with
  | [LTx b t] => if Bool.eqb b a then w' = w ++ [PTlp t] else w' = w
  | [LDllpTx b d] => if Bool.eqb b a then w' = w ++ [PDllp d] else w' = w
  | [LRx b t] => if Bool.eqb b a then w' = w else exists t0, w = PTlp t0 :: w'
  | [LDllpRx b d] => if Bool.eqb b a then w' = w else w = PDllp d :: w'
  | _ => w' = w
  end.
Definition port_eff (l : list entry) (p p' : bool -> port) : Prop :=
  match l with
  | [] | [LGate _ _] | [LHandle _ _] | [LRelease _ _] | [LRx _ _] => forall a, same_tx (p a) (p' a)
  | [LTx a t] =>
    same_tx (p (negb a)) (p' (negb a)) /\ exists q, same_tx (p a) q /\
    same_tx (set_p_retry (p_retry q ++ [t]) (set_p_next_tx (Z.land (p_next_tx q + 1) 0xfff) q)) (p' a)
  | [LDllpTx a d] =>
    (forall b, same_tx (p b) (p' b)) /\
    (d = create_ack (Z.land (p_next_rx (p a) - 1) 0xfff) \/
     exists code ty, dllp_fc_type code = Ok ty /\ d = fc_dllp code ty (p_ch (p a)))
  | [LDllpRx a d] => same_tx (p (negb a)) (p' (negb a)) /\ handle_dllp d (p a) = Ok (p' a)
  | _ => False
  end.
Lemma upd_same {A} s (v : A) f : upd s v f s = v.
Proof. unfold upd. rewrite eqb_reflx. reflexivity. Qed.
Lemma upd_other {A} s (v : A) f : upd s v f (negb s) = f (negb s).
Proof. unfold upd. rewrite eqb_negb1. reflexivity. Qed.
Lemma upd_other' {A} s (v : A) f : upd (negb s) v f s = f s.
Proof. unfold upd. rewrite eqb_negb2. reflexivity. Qed.
Lemma two_sides (P : bool -> Prop) a : P a -> P (negb a) -> forall b, P b.
Proof. intros H1 H2 b. destruct a, b; assumption. Qed.

Lemma sys_port_wire st a p l b : p_busy p = p_busy (s_port st a) -> on_wire (sys_port a p l st) b = on_wire st b.
Proof.
  intros H. unfold on_wire, sys_port. cbn [s_flight s_port]. unfold upd.
  destruct (Bool.eqb b a) eqn:E; [apply eqb_prop in E; subst b; rewrite H|]; reflexivity.
Qed.
Lemma sys_port_same st a p : same_tx (s_port st a) p -> forall b, same_tx (s_port st b) (upd a p (s_port st) b).
Proof.
  intros H b. unfold upd. destruct (Bool.eqb b a) eqn:E; [apply eqb_prop in E; subst b; exact H|apply same_tx_refl].
Qed.

Lemma step_eff adv e st st' : sysinv adv st -> step e st = Ok st' ->
  exists l, s_log st' = s_log st ++ l /\ (forall a, wire_eff a l (on_wire st a) (on_wire st' a)) /\
  port_eff l (s_port st) (s_port st').
Proof.
  intros I H.
  assert (Id : st' = st -> exists l, s_log st' = s_log st ++ l /\ (forall a, wire_eff a l (on_wire st a) (on_wire st' a)) /\
    port_eff l (s_port st) (s_port st')).
  { intros ->. exists []. rewrite app_nil_r. split; [reflexivity|]. split; [reflexivity|]. intros a. apply same_tx_refl. }
  destruct e as [a t|a i|a w|a|a i|a|a n|a|a|a|n]; cbn [step] in H;
    try (destruct (I a) as [D1 T1]; destruct (I (negb a)) as [D2 T2]; unfold dinv in D1, D2; rewrite negb_involutive in D2).
  - destruct (tx_gate t (s_port st a)) as [p|] eqn:E; injection H as <-; [|auto].
    exists [LGate a t]. split; [reflexivity|].
    unfold tx_gate in E. destruct (get_fc_type t); [|discriminate]. destruct (_ && _); [|discriminate].
    injection E as <-. split.
    + intros b. cbn [wire_eff]. apply sys_port_wire. reflexivity.
    + cbn [port_eff sys_port s_port]. apply sys_port_same. constructor; try reflexivity.
      intros k ty. cbn [p_ch set_p_pend set_p_ch]. unfold tx_consume_fc. rewrite fcof_on.
      destruct (fc_eqb ty a0); [|reflexivity]. destruct k; unfold f_tx_consume; destruct tx_is_infinite; reflexivity.
  - destruct (p_txq (s_port st a)); [|injection H as <-; auto].
    destruct (nth_error (p_pend (s_port st a)) i) as [t|]; injection H as <-; [|auto].
    exists []. split; [reflexivity|]. split.
    + intros b. cbn [wire_eff]. apply sys_port_wire. reflexivity.
    + cbn [port_eff sys_port s_port]. apply sys_port_same. constructor; reflexivity.
  - destruct (p_busy (s_port st a)) as [b|] eqn:Eb; [injection H as <-; auto|].
    destruct (tx_select (s_now st) (s_port st a)) as [p' o] eqn:Es.
    destruct (tx_select_cases _ _ _ _ Es) as (B & D & Sel).
    assert (Wr : forall k l b, on_wire (sys_port a (set_p_busy (Some (s_now st + Z.max w 1, k)) p') l st) b =
       if Bool.eqb a b then on_wire st b ++ [k] else on_wire st b).
    { intros k l b. unfold on_wire, sys_port. cbn [s_port s_flight]. unfold upd.
      destruct (Bool.eqb a b) eqn:E.
      - apply eqb_prop in E. subst b. rewrite eqb_reflx, Eb. cbn [p_busy set_p_busy]. rewrite app_nil_r. reflexivity.
      - replace (Bool.eqb b a) with false by (destruct a, b; auto). reflexivity. }
    destruct Sel as [Ht Hr|Ht Hr|code ty Ht Hr Ec Ei|t q Ht Hr Htx Hr']; injection H as <-.
    + exists []. split; [reflexivity|]. split.
      * intros b. cbn [wire_eff]. apply sys_port_wire. auto.
      * cbn [port_eff sys_port s_port]. apply sys_port_same. apply teq_same; auto.
    + rewrite (d_nak _ _ _ _ _ _ _ _ _ _ D2). eexists [LDllpTx a _]. split; [reflexivity|]. split.
      * intros b. cbn [wire_eff]. rewrite Wr. destruct (Bool.eqb a b); reflexivity.
      * cbn [port_eff sys_port s_port]. split; [|left; reflexivity]. apply sys_port_same. apply teq_same.
        eapply teq_trans; [exact Ht|apply teq_busy].
    + eexists [LDllpTx a _]. split; [reflexivity|]. split.
      * intros b. cbn [wire_eff]. rewrite Wr. destruct (Bool.eqb a b); reflexivity.
      * cbn [port_eff sys_port s_port]. split; [|right; eauto]. apply sys_port_same. apply teq_same.
        eapply teq_trans; [exact Ht|apply teq_busy].
    + exists [LTx a t]. split; [reflexivity|]. split.
      * intros b. cbn [wire_eff]. rewrite Wr. destruct (Bool.eqb a b); reflexivity.
      * cbn [port_eff sys_port s_port]. rewrite upd_other, upd_same. split; [apply same_tx_refl|].
        exists q. split; [apply teq_same; auto|]. unfold tx_tlp in Htx.
        destruct (p_txq q) as [|t0 r]; [discriminate|]. injection Htx as <- <-. constructor; reflexivity.
  - destruct (p_busy (s_port st a)) as [[t k]|] eqn:Eb; [|injection H as <-; auto].
    destruct (t =? s_now st); injection H as <-; [|auto].
    exists []. rewrite app_nil_r. split; [reflexivity|]. split.
    + intros b. cbn [wire_eff]. unfold on_wire. cbn [s_port s_flight]. unfold upd.
      destruct (Bool.eqb b a) eqn:E; [|reflexivity]. apply eqb_prop in E. subst b. rewrite Eb.
      cbn [p_busy set_p_busy]. rewrite map_app, app_nil_r. reflexivity.
    + cbn [port_eff s_port]. apply sys_port_same. constructor; reflexivity.
  - destruct (nth_error (s_flight st a) i) as [[t k]|] eqn:En; [|injection H as <-; auto].
    destruct (Z.eqb_spec t (s_now st)) as [E|]; [|injection H as <-; auto].
    destruct (tinv_fifo _ _ _ _ _ _ T1 En E) as (-> & Ef). set (fl := tl (s_flight st a)) in *. clearbody fl.
    destruct (ext_recv k (s_port st (negb a))) as [p'|] eqn:Er; [|discriminate]. cbn [bind] in H. injection H as <-.
    destruct (ext_recv_busy _ _ _ Er) as [B D].
    assert (Wr : forall lg b, on_wire (mkSys (upd (negb a) p' (s_port st)) (upd a (remove_nth 0 (s_flight st a)) (s_flight st)) (s_now st)
        lg) b = if Bool.eqb (negb a) b then on_wire st b else tl (on_wire st b)).
    { intros lg b. unfold on_wire. cbn [s_port s_flight]. destruct a, b; cbn [negb upd Bool.eqb]; rewrite ?B; cbn [negb]; try reflexivity;
      rewrite Ef; reflexivity. }
    assert (W : on_wire st a = k :: tl (on_wire st a)) by (unfold on_wire; rewrite Ef; reflexivity).
    eexists. split; [reflexivity|]. destruct k as [tt_|d].
    + rewrite W in D1. destruct (dir_recv_tlp _ _ _ _ _ _ _ _ _ _ _ D1) as (Hs & R' & Hrc & Ht & Hd).
      rewrite Er in Hrc. injection Hrc as <-. cbn [log_rx]. rewrite Hs, Z.eqb_refl. split.
      * intros b. cbn [wire_eff]. rewrite Wr. destruct (Bool.eqb (negb a) b) eqn:Eb; [reflexivity|].
        replace b with a by (destruct a, b; cbn in Eb; congruence). eexists. exact W.
      * cbn [port_eff s_port]. apply sys_port_same. apply teq_same. exact Ht.
    + cbn [log_rx]. split.
      * intros b. cbn [wire_eff]. rewrite Wr. destruct (Bool.eqb (negb a) b) eqn:Eb; [reflexivity|].
        replace b with a by (destruct a, b; cbn in Eb; congruence). exact W.
      * cbn [port_eff s_port]. rewrite negb_involutive, upd_other', upd_same. split; [apply same_tx_refl|exact Er].
  - destruct (p_rxq (s_port st a)) as [|[m t] r]; injection H as <-; [auto|].
    exists [LHandle a t]. split; [reflexivity|]. split.
    + intros b. cbn [wire_eff]. apply sys_port_wire. reflexivity.
    + cbn [port_eff sys_port s_port]. apply sys_port_same. constructor; reflexivity.
  - destruct (n <? c_tok (p_ch (s_port st a)))%nat eqn:Ln; [|injection H as <-; auto]. apply Nat.ltb_lt in Ln.
    rewrite (d_tok _ _ _ _ _ _ _ _ _ _ D2) in Ln.
    pose proof (dir_release _ _ _ n _ _ _ _ _ _ _ Ln D2) as Dr.
    destruct (rx_release_fc_token n (p_ch (s_port st a))) as [c|]; injection H as <-; exists [LRelease a n]; (split; [reflexivity|]); split.
    + intros b. cbn [wire_eff]. apply sys_port_wire. reflexivity.
    + cbn [port_eff sys_port s_port]. apply sys_port_same. apply teq_same. apply Dr.
    + intros b. cbn [wire_eff]. apply sys_port_wire. reflexivity.
    + cbn [port_eff sys_port s_port]. apply sys_port_same. apply same_tx_refl.
  - destruct (p_ack_timer (s_port st a)); injection H as <-; [|auto]. exists []. split; [reflexivity|]. split.
    + intros b. cbn [wire_eff]. apply sys_port_wire. destruct (p_nak _); reflexivity.
    + cbn [port_eff sys_port s_port]. apply sys_port_same. destruct (p_nak _); constructor; reflexivity.
  - destruct (p_fc_timer (s_port st a)); injection H as <-; [|auto]. exists []. split; [reflexivity|]. split.
    + intros b. cbn [wire_eff]. apply sys_port_wire. reflexivity.
    + cbn [port_eff sys_port s_port]. apply sys_port_same. constructor; reflexivity.
  - injection H as <-. exists []. split; [reflexivity|]. split.
    + intros b. cbn [wire_eff]. apply sys_port_wire. reflexivity.
    + cbn [port_eff sys_port s_port]. apply sys_port_same. constructor; reflexivity.
  - match type of H with (if ?b then _ else _) = _ => destruct b end; injection H as <-; [|auto].
    exists []. rewrite app_nil_r. split; [reflexivity|]. split; [reflexivity|]. intros a. apply same_tx_refl.
Qed.
