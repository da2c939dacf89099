From Verif Require Import Base BaseProofs ModelUtils ModelChan.

Section Chan.
  Context {F B S K : Type}.
  Context (produce : S -> list F -> option (res (B * S * list F))) (consume : K -> B -> res (K * list F)).
  (** [link s k q ps]: the sink is where the source is, and [ps] are the frames not yet finished. *)
  Context (link : S -> K -> list F -> list F -> Prop) (good : F -> Prop) (rcv : F -> F -> Prop).
  Context (link_send : forall s k q ps f, link s k q ps -> good f -> link s k (q ++ [f]) (ps ++ [f])).
  Context (link_beat : forall s k q ps, link s k q ps ->
    match produce s q with
    | None => ps = []
    | Some r => exists b s' q' k' done sunk ps', r = Ok (b, s', q') /\ consume k b = Ok (k', sunk) /\ ps = done ++ ps' /\ Forall2 rcv done sunk /\ link s' k' q' ps'
    end).
  Notation chan := (chan F B S K).
  Notation step := (chan_step produce consume).
  Notation run := (chan_run produce consume).
  Definition opt {A} (o : option A) : list A := match o with Some x => [x] | None => [] end.
  Definition flight (c : chan) : list B := opt (c_sample c) ++ (if c_valid c then opt (c_bus c) else []) ++ opt (c_drive c) ++ opt (c_pend c).
  Fixpoint thru (k : K) (bs : list B) : res (K * list F) :=
    match bs with
    | [] => Ok (k, [])
    | b :: bs => '(k, fs) <- consume k b ;; '(k, gs) <- thru k bs ;; Ok (k, fs ++ gs)
    end.
  Lemma thru_app bs bs' : forall k, thru k (bs ++ bs') = ('(k, fs) <- thru k bs ;; '(k, gs) <- thru k bs' ;; Ok (k, fs ++ gs)).
  Proof.
    induction bs as [|b bs IH]; intros k; cbn [app thru bind].
    - destruct (thru k bs') as [(k' & gs)|]; reflexivity.
    - destruct (consume k b) as [(k1 & fs)|]; cbn [bind]; [|reflexivity]. rewrite IH. destruct (thru k1 bs) as [(k2 & gs)|]; cbn [bind]; [|reflexivity].
      destruct (thru k2 bs') as [(k3 & hs)|]; cbn [bind]; [|reflexivity]. rewrite app_assoc. reflexivity.
  Qed.
  Record inv (c : chan) (sent : list F) : Prop := {
    i_flow : exists k sunk done ps, thru (c_sink c) (flight c) = Ok (k, sunk) /\ link (c_src c) k (c_queue c) ps /\ sent = done ++ ps /\ Forall2 rcv done (c_recv c ++ sunk);
    i_kwait : c_kwait c = true -> c_valid c = true -> c_ready c = false;
    i_swait : c_swait c = true -> c_valid c = false /\ c_drive c = None;
    i_bus : c_valid c = true -> c_bus c <> None }.
  Ltac same_flow I := destruct I as [(k & sunk & done & ps & I1 & I2 & I3 & I4) Ik Is Ib].
  Lemma edge_flight c sp pa sl : is_none (c_sample c) = true -> (c_kwait c = true -> c_valid c = true -> c_ready c = false) -> (c_swait c = true -> c_valid c = false /\ c_drive c = None) ->
    (c_valid c = true -> c_bus c <> None) ->
    let c' := monitors c (sink_edge (c_valid c) (c_bus c) pa sl (src_edge sp c)) in
    flight c' = flight c /\ c_queue c' = c_queue c /\ c_src c' = c_src c /\ c_sink c' = c_sink c /\ c_recv c' = c_recv c /\
    (c_kwait c' = true -> c_valid c' = true -> c_ready c' = false) /\ (c_swait c' = true -> c_valid c' = false /\ c_drive c' = None) /\ (c_valid c' = true -> c_bus c' <> None).
  Proof.
    intros N Ik Is Ib. destruct c as [q s p d v bu sw r kw sm k rc]. cbn [c_queue c_src c_pend c_drive c_valid c_bus c_swait c_ready c_kwait c_sample c_sink c_recv] in *.
    destruct sm; [discriminate|]. clear N.
    destruct v, r, kw; try (specialize (Ik eq_refl eq_refl); discriminate); (destruct sw; [destruct (Is eq_refl) as (Is1 & Is2); try discriminate; subst d|]); try (destruct bu; [|exfalso; apply Ib; reflexivity]); destruct sp, pa, sl; try destruct d;
      cbn; repeat split; try discriminate; try congruence; try (intros; congruence).
  Qed.
  Lemma step_inv c sent o : inv c sent -> match o with OSend f => good f | _ => True end ->
    match step c o with None => True | Some r => exists c', r = Ok c' /\ inv c' (sent ++ match o with OSend f => [f] | _ => [] end) end.
  Proof.
    intros I Go. destruct o as [f| | |sp pa sl| |]; cbn [chan_step].
    - same_flow I. eexists. split; [reflexivity|]. constructor; cbn; try assumption. exists k, sunk, done, (ps ++ [f]). split; [exact I1|]. split; [apply link_send; assumption|]. split; [rewrite I3, app_assoc; reflexivity|exact I4].
    - destruct (c_pend c) eqn:P; [exact Logic.I|]. same_flow I. pose proof (link_beat _ _ _ _ I2) as X. destruct (produce (c_src c) (c_queue c)) as [r|]; [|exact Logic.I].
      destruct X as (b & s' & q' & k' & done' & sunk' & ps' & -> & X2 & X3 & X4 & X5). cbn [bind]. eexists. split; [reflexivity|]. rewrite app_nil_r. constructor; cbn; try assumption.
      exists k', (sunk ++ sunk'), (done ++ done'), ps'. split; [|split; [exact X5|split; [rewrite I3, X3, app_assoc; reflexivity|rewrite app_assoc; apply Forall2_app; assumption]]].
      unfold flight in *. cbn [c_sample c_valid c_bus c_drive c_pend] in *. rewrite P in I1. cbn [opt] in *. rewrite app_nil_r in I1.
      rewrite !app_assoc in *. rewrite thru_app, I1. cbn [bind thru]. rewrite X2. cbn [bind]. rewrite app_nil_r. reflexivity.
    - destruct (c_pend c) as [b|] eqn:P; [|exact Logic.I]. destruct (c_drive c) eqn:D; [exact Logic.I|]. same_flow I. eexists. split; [reflexivity|]. rewrite app_nil_r. constructor; cbn; try assumption; [|discriminate].
      exists k, sunk, done, ps. split; [|tauto]. unfold flight in *. cbn [c_sample c_valid c_bus c_drive c_pend]. rewrite P, D in I1. exact I1.
    - destruct (is_none (c_sample c)) eqn:N; [|exact Logic.I]. same_flow I. destruct (edge_flight c sp pa sl N Ik Is Ib) as (E1 & E2 & E3 & E4 & E5 & E6 & E7 & E8).
      eexists. split; [reflexivity|]. rewrite app_nil_r. constructor; try assumption. exists k, sunk, done, ps. rewrite E1, E2, E3, E4, E5. tauto.
    - destruct (c_sample c) as [b|] eqn:P; [|exact Logic.I]. same_flow I. unfold flight in I1. rewrite P in I1. cbn [opt app thru] in I1. destruct (consume (c_sink c) b) as [(k1 & fs)|]; [|discriminate]. cbn [bind] in I1.
      destruct (thru k1 _) as [(k2 & gs)|] eqn:T; [|discriminate]. cbn [bind] in I1. injection I1 as -> <-. eexists. split; [reflexivity|]. rewrite app_nil_r. constructor; cbn; try assumption.
      exists k, gs, done, ps. split; [exact T|]. split; [exact I2|]. split; [exact I3|]. rewrite <- app_assoc. exact I4.
    - same_flow I. eexists. split; [reflexivity|]. rewrite app_nil_r. constructor; cbn; try assumption; [|discriminate]. exists k, sunk, done, ps. tauto.
  Qed.
  Lemma run_inv os : forall c sent, inv c sent -> Forall good (sent_frames os) -> match run c os with None => True | Some r => exists c', r = Ok c' /\ inv c' (sent ++ sent_frames os) end.
  Proof.
    induction os as [|o os IH]; intros c sent I G.
    - cbn. exists c. split; [reflexivity|]. rewrite app_nil_r. exact I.
    - cbn [chan_run]. unfold sent_frames in *. cbn [flat_map] in *. apply Forall_app in G. destruct G as (G1 & G2). pose proof (step_inv c sent o I) as X.
      assert (Go : match o with OSend f => good f | _ => True end) by (destruct o; try exact Logic.I; inversion G1; assumption). specialize (X Go).
      destruct (step c o) as [r|]; [|exact Logic.I]. destruct X as (c' & -> & I'). specialize (IH c' _ I' G2). destruct (run c' os) as [r|]; [|exact Logic.I]. destruct IH as (c2 & -> & I2). exists c2. split; [reflexivity|].
      rewrite <- app_assoc in I2. exact I2.
  Qed.
  Lemma inv0 s k : link s k [] [] -> inv (chan0 s k) [].
  Proof. intros H. constructor; cbn; try discriminate. exists k, [], [], []. repeat split; [exact H|constructor]. Qed.

  (** *** Nothing gets stuck *)
  Context (work : S -> list F -> nat).
  Context (work_less : forall s q b s' q' k ps, link s k q ps -> produce s q = Some (Ok (b, s', q')) -> (work s' q' < work s q)%nat).
  Definition calm (o : chan_op F) : Prop := match o with ORun | ODrive | OSink | OEdge false false true => True | _ => False end.
  Definition ob {A} (o : option A) (n : nat) : nat := match o with Some _ => n | None => O end.
  Definition weight (c : chan) : nat := ob (c_sample c) 1 + (if c_valid c then 2 else 0) + ob (c_drive c) 4 + ob (c_pend c) 6 + (if c_ready c then 0 else 1).
  Definition awake (c : chan) : Prop := c_kwait c = true -> c_ready c = true.
  Lemma flight_step c sent : inv c sent -> awake c -> flight c <> [] -> exists o c', calm o /\ step c o = Some (Ok c') /\ inv c' sent /\ awake c' /\ (weight c' < weight c)%nat /\ work (c_src c') (c_queue c') = work (c_src c) (c_queue c).
  Proof.
    intros I A N. destruct (c_sample c) as [b|] eqn:Sm.
    - pose proof (step_inv c sent OSink I Logic.I) as X. cbn [chan_step] in X. rewrite Sm in X. destruct (consume (c_sink c) b) as [(k1 & fs)|] eqn:Cn; cbn [bind] in X; destruct X as (c' & E & I'); [|discriminate E]. apply Ok_inj in E.
      exists OSink, c'. split; [exact Logic.I|]. split; [cbn [chan_step]; rewrite Sm, Cn; cbn [bind]; rewrite E; reflexivity|]. rewrite app_nil_r in I'. split; [exact I'|]. subst c'. unfold awake, weight. rewrite Sm. cbn. split; [exact A|]. split; [lia|reflexivity].
    - destruct (c_valid c) eqn:V.
      + pose proof (step_inv c sent (OEdge false false true) I Logic.I) as X. cbn [chan_step] in X. rewrite Sm in X. cbn [is_none] in X. destruct X as (c' & E & I'). exists (OEdge false false true), c'. split; [exact Logic.I|].
        split; [cbn [chan_step]; rewrite Sm; cbn [is_none]; rewrite E; reflexivity|]. rewrite app_nil_r in I'. split; [exact I'|]. apply Ok_inj in E. subst c'. destruct I as [_ Ik Is Ib]. clear I'. unfold awake in *.
        destruct c as [q s p d v bu sw r kw sm k rc]. cbn [c_queue c_src c_pend c_drive c_valid c_bus c_swait c_ready c_kwait c_sample c_sink c_recv] in *. subst v sm.
        destruct kw; [specialize (Ik eq_refl eq_refl); specialize (A eq_refl); congruence|]. destruct sw; [destruct (Is eq_refl); discriminate|].
        destruct bu; [|exfalso; apply Ib; reflexivity]. destruct r, d, p; cbn; unfold weight; cbn; (split; [intros; reflexivity || discriminate|split; [lia|reflexivity]]).
      + destruct (c_drive c) as [b|] eqn:D.
        * pose proof (step_inv c sent (OEdge false false true) I Logic.I) as X. cbn [chan_step] in X. rewrite Sm in X. cbn [is_none] in X. destruct X as (c' & E & I'). exists (OEdge false false true), c'. split; [exact Logic.I|].
          split; [cbn [chan_step]; rewrite Sm; cbn [is_none]; rewrite E; reflexivity|]. rewrite app_nil_r in I'. split; [exact I'|]. apply Ok_inj in E. subst c'. destruct I as [_ Ik Is Ib]. clear I'. unfold awake in *.
          destruct c as [q s p d v bu sw r kw sm k rc]. cbn [c_queue c_src c_pend c_drive c_valid c_bus c_swait c_ready c_kwait c_sample c_sink c_recv] in *. subst v sm d.
          destruct sw; [destruct (Is eq_refl); discriminate|]. destruct r, kw, p; try (specialize (A eq_refl); discriminate); unfold weight; cbn; (split; [intros; reflexivity || discriminate|split; [lia|reflexivity]]).
        * destruct (c_pend c) as [b|] eqn:P; [|exfalso; apply N; unfold flight; rewrite Sm, V, D, P; reflexivity].
          pose proof (step_inv c sent ODrive I Logic.I) as X. cbn [chan_step] in X. rewrite P, D in X. destruct X as (c' & E & I'). exists ODrive, c'. split; [exact Logic.I|].
          split; [cbn [chan_step]; rewrite P, D, E; reflexivity|]. rewrite app_nil_r in I'. split; [exact I'|]. apply Ok_inj in E. subst c'. unfold awake, weight in *. cbn. rewrite Sm, V, D, P. cbn. split; [exact A|]. split; [lia|reflexivity].
  Qed.
  Lemma drain : forall w n c sent, (work (c_src c) (c_queue c) <= w)%nat -> (weight c <= n)%nat -> inv c sent -> awake c ->
    exists os c', Forall calm os /\ run c os = Some (Ok c') /\ inv c' sent /\ flight c' = [] /\ produce (c_src c') (c_queue c') = None.
  Proof.
    induction w as [w IHw] using (well_founded_induction Wf_nat.lt_wf). induction n as [n IHn] using (well_founded_induction Wf_nat.lt_wf). intros c sent Hw Hn I A.
    destruct (flight c) as [|b bs] eqn:FL.
    - destruct (produce (c_src c) (c_queue c)) as [r|] eqn:P.
      + assert (PN : c_pend c = None) by (unfold flight in FL; apply app_eq_nil in FL; destruct FL as (_ & FL); apply app_eq_nil in FL; destruct FL as (_ & FL); apply app_eq_nil in FL; destruct FL as (_ & FL); destruct (c_pend c); [discriminate|reflexivity]).
        pose proof (step_inv c sent ORun I Logic.I) as X. assert (ST : step c ORun = Some ('(b, s, q) <- r ;; Ok (mkChan q s (Some b) (c_drive c) (c_valid c) (c_bus c) (c_swait c) (c_ready c) (c_kwait c) (c_sample c) (c_sink c) (c_recv c)))) by (cbn [chan_step]; rewrite PN, P; reflexivity).
        rewrite ST in X. destruct X as (c' & E & I'). rewrite app_nil_r in I'. destruct r as [((b & s') & q')|]; [|discriminate E]. cbn [bind] in E, ST. apply Ok_inj in E.
        destruct I as [(k & sunk & done & ps & I1 & I2 & I3 & I4) Ik Is Ib]. assert (LK : exists k ps, link (c_src c) k (c_queue c) ps) by eauto. destruct LK as (k0 & ps0 & LK). pose proof (work_less _ _ _ _ _ _ _ LK P) as WL.
        assert (A' : awake c') by (subst c'; exact A). assert (W' : work (c_src c') (c_queue c') = work s' q') by (subst c'; reflexivity).
        destruct (IHw (work s' q') ltac:(lia) (weight c') c' sent ltac:(lia) ltac:(lia) I' A') as (os & c2 & G1 & G2 & G3 & G4 & G5).
        exists (ORun :: os), c2. split; [constructor; [exact Logic.I|exact G1]|]. split; [cbn [chan_run]; rewrite ST, E; exact G2|]. split; [exact G3|]. split; [exact G4|exact G5].
      + exists [], c. split; [constructor|]. split; [reflexivity|]. split; [exact I|]. split; [exact FL|exact P].
    - destruct (flight_step c sent I A ltac:(rewrite FL; discriminate)) as (o & c1 & C1 & C2 & C3 & C4 & C5 & C6).
      destruct (IHn (weight c1) ltac:(lia) c1 sent ltac:(lia) ltac:(lia) C3 C4) as (os & c2 & G1 & G2 & G3 & G4 & G5).
      exists (o :: os), c2. split; [constructor; assumption|]. split; [cbn [chan_run]; rewrite C2; exact G2|]. split; [exact G3|]. split; [exact G4|exact G5].
  Qed.

  (** ** The theorems *)
  Theorem chan_safe s k os : link s k [] [] -> Forall good (sent_frames os) ->
    match run (chan0 s k) os with
    | None => True
    | Some r => exists c, r = Ok c /\ exists done rest, sent_frames os = done ++ rest /\ Forall2 rcv done (c_recv c) /\
        (flight c = [] -> produce (c_src c) (c_queue c) = None -> rest = [])
    end.
  Proof.
    intros H G. pose proof (run_inv os _ _ (inv0 s k H) G) as X. destruct (run (chan0 s k) os) as [r|]; [|exact Logic.I]. destruct X as (c & -> & [(k' & sunk & done & ps & I1 & I2 & I3 & I4) _ _ _]). cbn [app] in I3. exists c. split; [reflexivity|].
    apply Forall2_app_inv_r in I4. destruct I4 as (d1 & d2 & A1 & A2 & ->). exists d1, (d2 ++ ps). rewrite app_assoc. split; [exact I3|]. split; [exact A1|]. intros FL P. rewrite FL in I1. cbn in I1. injection I1 as <- <-. inversion A2; subst.
    pose proof (link_beat _ _ _ _ I2) as X. rewrite P in X. exact X.
  Qed.
  Theorem chan_live s k os c : link s k [] [] -> Forall good (sent_frames os) -> run (chan0 s k) os = Some (Ok c) ->
    exists os' c', Forall calm os' /\ run c (OWake :: os') = Some (Ok c') /\ Forall2 rcv (sent_frames os) (c_recv c').
  Proof.
    intros H G R. pose proof (run_inv os _ _ (inv0 s k H) G) as X. rewrite R in X. destruct X as (c0 & E & I). apply Ok_inj in E. subst c0. cbn [app] in I.
    pose proof (step_inv c _ OWake I Logic.I) as X. cbn [chan_step] in X. destruct X as (c1 & E & I1). rewrite app_nil_r in I1. assert (A : awake c1) by (apply Ok_inj in E; subst c1; intros D; discriminate D).
    destruct (drain _ _ c1 _ (le_n _) (le_n _) I1 A) as (os' & c2 & D1 & D2 & [(k' & sunk & done & ps & J1 & J2 & J3 & J4) _ _ _] & D4 & D5).
    exists os', c2. split; [exact D1|]. split; [apply Ok_inj in E; subst c1; exact D2|]. rewrite D4 in J1. cbn in J1. injection J1 as <- <-. rewrite app_nil_r in J4.
    pose proof (link_beat _ _ _ _ J2) as X. rewrite D5 in X. subst ps. rewrite app_nil_r in J3. rewrite J3. exact J4.
  Qed.
End Chan.
