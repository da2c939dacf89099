From Verif Require Import Base BaseProofs ModelUtils ModelChan ModelAvst.

Section Avst.
  Context {F B S K : Type} (lat : nat) (bvalid : B -> bool).
  Context (produce : S -> list F -> option (res (B * S * list F))) (consume : K -> B -> res (K * list F)).
  (** [link s k q ps]: the sink is where the source is, and [ps] are the frames not yet finished. *)
  Context (link : S -> K -> list F -> list F -> Prop) (good : F -> Prop) (rcv : F -> F -> Prop).
  Context (link_send : forall s k q ps f, link s k q ps -> good f -> link s k (q ++ [f]) (ps ++ [f])).
  Context (link_beat : forall s k q ps, link s k q ps ->
    match produce s q with
    | None => ps = []
    | Some r => exists b s' q' k' done sunk ps', r = Ok (b, s', q') /\ bvalid b = true /\ consume k b = Ok (k', sunk) /\ ps = done ++ ps' /\ Forall2 rcv done sunk /\ link s' k' q' ps'
    end).
  Notation avst := (avst F B S K).
  Notation step := (avst_step lat bvalid produce consume).
  Notation run := (avst_run lat bvalid produce consume).
  Definition aopt {A} (o : option A) : list A := match o with Some x => [x] | None => [] end.
  Definition aflight (c : avst) : list B := aopt (v_sample c) ++ (if v_valid c then aopt (v_bus c) else []) ++ aopt (v_drive c) ++ aopt (v_pend c).
  Fixpoint athru (k : K) (bs : list B) : res (K * list F) :=
    match bs with
    | [] => Ok (k, [])
    | b :: bs => '(k, fs) <- consume k b ;; '(k, gs) <- athru k bs ;; Ok (k, fs ++ gs)
    end.
  Lemma athru_app bs bs' : forall k, athru k (bs ++ bs') = ('(k, fs) <- athru k bs ;; '(k, gs) <- athru k bs' ;; Ok (k, fs ++ gs)).
  Proof.
    induction bs as [|b bs IH]; intros k; cbn [app athru bind].
    - destruct (athru k bs') as [(k' & gs)|]; reflexivity.
    - destruct (consume k b) as [(k1 & fs)|]; cbn [bind]; [|reflexivity]. rewrite IH. destruct (athru k1 bs) as [(k2 & gs)|]; cbn [bind]; [|reflexivity].
      destruct (athru k2 bs') as [(k3 & hs)|]; cbn [bind]; [|reflexivity]. rewrite app_assoc. reflexivity.
  Qed.
  (** What the source used at the last edge is what the sink uses at the next one. *)
  Definition lined (c : avst) : Prop :=
    lat = O \/ exists x, delay lat (v_kdel c) = x :: delay (lat - 1) (v_sdel c) /\ (v_valid c = true -> x = true).
  Record ainv (c : avst) (sent : list F) : Prop := {
    a_flow : exists k sunk done ps, athru (v_sink c) (aflight c) = Ok (k, sunk) /\ link (v_src c) k (v_queue c) ps /\ sent = done ++ ps /\ Forall2 rcv done (v_recv c ++ sunk);
    a_line : lined c;
    a_bus : v_valid c = true -> v_bus c <> None;
    a_pend : forall b, v_pend c = Some b -> bvalid b = true;
    a_drive : forall b, v_drive c = Some b -> bvalid b = true }.
  Lemma delay_len n l : length (delay n l) = n.
  Proof. unfold delay. destruct (Nat.eqb_spec (length l) n); [assumption|apply repeat_length]. Qed.
  Lemma delay_id n l : length l = n -> delay n l = l.
  Proof. unfold delay. intros ->. rewrite Nat.eqb_refl. reflexivity. Qed.
  Lemma shift_spec n l r : exists x d, shift n l r = (x, d) /\ delay n l ++ [r] = x :: d /\ length d = n.
  Proof.
    unfold shift. pose proof (delay_len n l) as L. destruct (delay n l) as [|x d]; cbn [app].
    - exists r, []. repeat split. exact L.
    - exists x, (d ++ [r]). repeat split. cbn in L. rewrite app_length. cbn. lia.
  Qed.
  (** An edge, with the values of ready that both sides use. *)
  Lemma edge_case c sp pa : lined c -> is_none (v_sample c) = true -> (v_valid c = true -> v_bus c <> None) -> (forall b, v_drive c = Some b -> bvalid b = true) ->
    exists c' : avst, asink_edge lat (v_valid c) (v_bus c) pa (asrc_edge lat bvalid sp c) = Ok c' /\ lined c' /\ aflight c' = aflight c /\
    v_queue c' = v_queue c /\ v_src c' = v_src c /\ v_sink c' = v_sink c /\ v_recv c' = v_recv c /\ v_pend c' = v_pend c /\
    (v_valid c' = true -> v_bus c' <> None) /\ (forall b, v_drive c' = Some b -> v_drive c = Some b) /\ v_ready c' = negb pa /\
    (* the ready values in the pipe *)
    (match lat with O => True | Datatypes.S _ => exists x l, delay lat (v_kdel c) ++ [v_ready c] = x :: l /\ delay lat (v_kdel c') = l end) /\
    (sp = false -> (match lat with O => v_ready c | Datatypes.S _ => hd false (tl (delay lat (v_kdel c) ++ [v_ready c])) end) = true ->
       v_drive c' = None /\ v_sample c' = (if v_valid c then v_bus c else None) /\ v_valid c' = negb (is_none (v_drive c))).
  Proof.
    intros Ln N Ib Id. destruct c as [q s p d v bu sd r kd sm k rc]. unfold lined, asink_edge, asrc_edge, aflight in *.
    cbn [v_queue v_src v_pend v_drive v_valid v_bus v_sdel v_ready v_kdel v_sample v_sink v_recv] in *.
    destruct sm; [discriminate|]. clear N. destruct lat as [|n].
    - cbn [Nat.ltb Nat.leb Nat.eqb]. destruct v; [destruct bu as [b0|]; [|exfalso; apply Ib; reflexivity]|]; destruct r, sp, d as [b|]; cbn;
        try (rewrite (Id b eq_refl)); eexists; (split; [reflexivity|]); cbn; repeat split; try discriminate; auto; try congruence.
    - destruct Ln as [Ln|(x & L1 & L2)]; [discriminate|]. change (Nat.ltb 0 (Datatypes.S n)) with true. cbv iota. cbn [Nat.eqb].
      destruct (shift_spec (Datatypes.S n) kd r) as (x' & kd' & E1 & E2 & E3). rewrite L1 in E2. cbn [app] in E2. injection E2 as <- E2.
      assert (HS : exists y sd', (if Nat.ltb 1 (Datatypes.S n) then shift (Datatypes.S n - 1) sd r else (r, sd)) = (y, sd') /\ kd' = y :: delay (Datatypes.S n - 1) sd').
      { destruct n as [|n].
        - cbn [Nat.ltb Nat.leb]. exists r, sd. split; [reflexivity|]. rewrite <- E2. cbn [Nat.sub]. unfold delay. destruct sd; reflexivity.
        - change (Nat.ltb 1 (Datatypes.S (Datatypes.S n))) with true. cbv iota. destruct (shift_spec (Datatypes.S (Datatypes.S n) - 1) sd r) as (y & sd' & F1 & F2 & F3). exists y, sd'. split; [exact F1|].
          rewrite (delay_id _ _ F3), <- F2. symmetry. exact E2. }
      destruct HS as (y & sd' & HS1 & HS2). rewrite HS1. rewrite L1. rewrite orb_true_r. cbv iota.
      assert (T : tl ((x :: delay (Datatypes.S n - 1) sd) ++ [r]) = kd') by (cbn [app tl]; exact E2). rewrite T. replace (hd false kd') with y by (rewrite HS2; reflexivity).
      assert (PP : exists x0 l, (x :: delay (Datatypes.S n - 1) sd) ++ [r] = x0 :: l /\ delay (Datatypes.S n) kd' = l) by (exists x, kd'; split; [change (x :: (delay (Datatypes.S n - 1) sd ++ [r]) = x :: kd'); f_equal; exact E2|apply delay_id; exact E3]).
      assert (LL : forall v', (v' = true -> y = true) -> Datatypes.S n = O \/ exists x0, delay (Datatypes.S n) kd' = x0 :: delay (Datatypes.S n - 1) sd' /\ (v' = true -> x0 = true)).
      { intros v' Hv. right. exists y. rewrite (delay_id _ _ E3). split; [exact HS2|exact Hv]. }
      destruct v.
      + specialize (L2 eq_refl). subst x. destruct bu as [b0|]; [|exfalso; apply Ib; reflexivity].
        destruct d as [b|]; [destruct sp, y|destruct y]; cbn [negb andb orb]; cbn [v_queue v_src v_pend v_drive v_valid v_bus v_sdel v_ready v_kdel v_sample v_sink v_recv]; rewrite E1; cbn [negb andb orb bind py_assert aopt app is_none];
          try (rewrite (Id b eq_refl)); (eexists; split; [reflexivity|]); cbn [v_queue v_src v_pend v_drive v_valid v_bus v_sdel v_ready v_kdel v_sample v_sink v_recv aopt app];
          (split; [apply LL; congruence|]); repeat (split; [reflexivity|]); (split; [discriminate|]); (split; [congruence|]); (split; [reflexivity|]); (split; [exact PP|]); intros; try discriminate; repeat split.
      + destruct d as [b|]; [destruct sp, y|destruct y]; cbn [negb andb orb]; cbn [v_queue v_src v_pend v_drive v_valid v_bus v_sdel v_ready v_kdel v_sample v_sink v_recv]; rewrite E1; cbn [negb andb orb bind py_assert aopt app is_none];
          try (rewrite (Id b eq_refl)); (eexists; split; [reflexivity|]); cbn [v_queue v_src v_pend v_drive v_valid v_bus v_sdel v_ready v_kdel v_sample v_sink v_recv aopt app];
          (split; [apply LL; congruence|]); repeat (split; [reflexivity|]); (split; [discriminate|]); (split; [congruence|]); (split; [reflexivity|]); (split; [exact PP|]); intros; try discriminate; repeat split.
  Qed.
  Ltac same_flow I := destruct I as [(k & sunk & done & ps & I1 & I2 & I3 & I4) Il Ib Ip Id].
  Lemma step_ainv c sent o : ainv c sent -> match o with VSend f => good f | _ => True end ->
    match step c o with None => True | Some r => exists c', r = Ok c' /\ ainv c' (sent ++ match o with VSend f => [f] | _ => [] end) end.
  Proof.
    intros I Go. destruct o as [f| | |sp pa|]; cbn [avst_step].
    - same_flow I. eexists. split; [reflexivity|]. constructor; cbn; try assumption. exists k, sunk, done, (ps ++ [f]). split; [exact I1|]. split; [apply link_send; assumption|]. split; [rewrite I3, app_assoc; reflexivity|exact I4].
    - destruct (v_pend c) eqn:P; [exact Logic.I|]. same_flow I. pose proof (link_beat _ _ _ _ I2) as X. destruct (produce (v_src c) (v_queue c)) as [r|]; [|exact Logic.I].
      destruct X as (b & s' & q' & k' & done' & sunk' & ps' & -> & XV & X2 & X3 & X4 & X5). cbn [bind]. eexists. split; [reflexivity|]. rewrite app_nil_r. constructor; cbn; try assumption; [|intros b' E; injection E as <-; exact XV].
      exists k', (sunk ++ sunk'), (done ++ done'), ps'. split; [|split; [exact X5|split; [rewrite I3, X3, app_assoc; reflexivity|rewrite app_assoc; apply Forall2_app; assumption]]].
      unfold aflight in *. cbn [v_sample v_valid v_bus v_drive v_pend] in *. rewrite P in I1. cbn [aopt] in *. rewrite app_nil_r in I1.
      rewrite !app_assoc in *. rewrite athru_app, I1. cbn [bind athru]. rewrite X2. cbn [bind]. rewrite app_nil_r. reflexivity.
    - destruct (v_pend c) as [b|] eqn:P; [|exact Logic.I]. destruct (v_drive c) eqn:D; [exact Logic.I|]. same_flow I. eexists. split; [reflexivity|]. rewrite app_nil_r. constructor; cbn; try assumption; [|discriminate|intros b' E; injection E as <-; apply Ip; exact P].
      exists k, sunk, done, ps. split; [|tauto]. unfold aflight in *. cbn [v_sample v_valid v_bus v_drive v_pend]. rewrite P, D in I1. exact I1.
    - destruct (is_none (v_sample c)) eqn:N; [|exact Logic.I]. same_flow I. destruct (edge_case c sp pa Il N Ib Id) as (c' & E0 & E1 & E2 & E3 & E4 & E5 & E6 & E7 & E8 & E9 & _).
      exists c'. split; [exact E0|]. rewrite app_nil_r. constructor; [|exact E1|exact E8|rewrite E7; exact Ip|intros b Hb; apply Id, E9; exact Hb]. exists k, sunk, done, ps. rewrite E2, E3, E4, E5, E6. tauto.
    - destruct (v_sample c) as [b|] eqn:P; [|exact Logic.I]. same_flow I. unfold aflight in I1. rewrite P in I1. cbn [aopt app athru] in I1. destruct (consume (v_sink c) b) as [(k1 & fs)|]; [|discriminate]. cbn [bind] in I1.
      destruct (athru k1 _) as [(k2 & gs)|] eqn:T; [|discriminate]. cbn [bind] in I1. injection I1 as -> <-. eexists. split; [reflexivity|]. rewrite app_nil_r. constructor; cbn; try assumption.
      exists k, gs, done, ps. split; [exact T|]. split; [exact I2|]. split; [exact I3|]. rewrite <- app_assoc. exact I4.
  Qed.
  Lemma run_ainv os : forall c sent, ainv c sent -> Forall good (avst_sent os) -> match run c os with None => True | Some r => exists c', r = Ok c' /\ ainv c' (sent ++ avst_sent os) end.
  Proof.
    induction os as [|o os IH]; intros c sent I G.
    - cbn. exists c. split; [reflexivity|]. rewrite app_nil_r. exact I.
    - cbn [avst_run]. unfold avst_sent in *. cbn [flat_map] in *. apply Forall_app in G. destruct G as (G1 & G2). pose proof (step_ainv c sent o I) as X.
      assert (Go : match o with VSend f => good f | _ => True end) by (destruct o; try exact Logic.I; inversion G1; assumption). specialize (X Go).
      destruct (step c o) as [r|]; [|exact Logic.I]. destruct X as (c' & -> & I'). specialize (IH c' _ I' G2). destruct (run c' os) as [r|]; [|exact Logic.I]. destruct IH as (c2 & -> & I2). exists c2. split; [reflexivity|].
      rewrite <- app_assoc in I2. exact I2.
  Qed.
  Lemma ainv0 s k : link s k [] [] -> ainv (avst0 s k) [].
  Proof.
    intros H. constructor; cbn; try discriminate; [exists k, [], [], []; repeat split; [exact H|constructor]|]. unfold lined. cbn. destruct lat as [|n]; [left; reflexivity|]. right. exists false. split; [|discriminate].
    cbn [Nat.sub]. rewrite Nat.sub_0_r. unfold delay. cbn [length Nat.eqb repeat]. destruct n; reflexivity.
  Qed.

  (** *** Nothing gets stuck *)
  Context (work : S -> list F -> nat).
  Context (work_less : forall s q b s' q' k ps, link s k q ps -> produce s q = Some (Ok (b, s', q')) -> (work s' q' < work s q)%nat).
  Definition acalm (o : avst_op F) : Prop := match o with VRun | VDrive | VSink | VEdge false false => True | _ => False end.
  Definition aob {A} (o : option A) (n : nat) : nat := match o with Some _ => n | None => O end.
  (** position of the last [false] *)
  Fixpoint lastf (l : list bool) : nat := match l with [] => O | b :: l => match lastf l with O => if b then O else 1%nat | n => Datatypes.S n end end.
  Lemma lastf_app l : lastf (l ++ [true]) = lastf l.
  Proof. induction l as [|b l IH]; [reflexivity|]. cbn [app lastf]. rewrite IH. reflexivity. Qed.
  Lemma lastf_0 l : lastf l = O -> Forall (fun b => b = true) l.
  Proof. induction l as [|b l IH]; [constructor|]. cbn [lastf]. destruct (lastf l); [|discriminate]. destruct b; [|discriminate]. intros _. constructor; auto. Qed.
  Definition pipe (c : avst) : list bool := match lat with O => [] | Datatypes.S _ => delay lat (v_kdel c) end ++ [v_ready c].
  Definition aweight (c : avst) : nat := aob (v_sample c) 1 + (if v_valid c then 2 else 0) + aob (v_drive c) 4 + aob (v_pend c) 6 + lastf (pipe c).
  Lemma calm_edge c sent : ainv c sent -> v_sample c = None -> v_valid c = true \/ v_drive c <> None ->
    exists c', step c (VEdge false false) = Some (Ok c') /\ ainv c' sent /\ (aweight c' < aweight c)%nat /\ v_src c' = v_src c /\ v_queue c' = v_queue c.
  Proof.
    intros I Sm Hv. pose proof (step_ainv c sent (VEdge false false) I Logic.I) as X. cbn [avst_step] in X. rewrite Sm in X. cbn [is_none] in X. destruct X as (c' & E & I'). rewrite app_nil_r in I'.
    same_flow I. destruct (edge_case c false false Il ltac:(rewrite Sm; reflexivity) Ib Id) as (c2 & E0 & E1 & E2 & E3 & E4 & E5 & E6 & E7 & E8 & E9 & E10 & E11 & E12).
    rewrite E0 in E. apply Ok_inj in E. subst c2. exists c'. split; [cbn [avst_step]; rewrite Sm; cbn [is_none]; rewrite E0; reflexivity|]. split; [exact I'|]. split; [|split; assumption].
    (* the pipe *)
    assert (PL : (lastf (pipe c') <= pred (lastf (pipe c)))%nat).
    { unfold pipe. rewrite E10. cbn [negb]. destruct lat as [|n]; [cbn; lia|]. destruct E11 as (x & l & A1 & A2). rewrite A1, A2, lastf_app. cbn [lastf]. destruct (lastf l); lia. }
    assert (SZ : (aob (v_sample c') 1 + (if v_valid c' then 2 else 0) + aob (v_drive c') 4 = (if v_valid c then 1 else 0) + aob (v_drive c) 2 \/
                 aob (v_sample c') 1 + (if v_valid c' then 2 else 0) + aob (v_drive c') 4 <= (if v_valid c then 2 else 0) + aob (v_drive c) 4 /\ 0 < lastf (pipe c))%nat).
    { destruct (match lat with O => v_ready c | Datatypes.S _ => hd false (tl (delay lat (v_kdel c) ++ [v_ready c])) end) eqn:R.
      - left. destruct (E12 eq_refl eq_refl) as (R1 & R2 & R3). rewrite R1, R2, R3. destruct (v_valid c) eqn:V; [destruct (v_bus c) eqn:Bu; [|exfalso; apply Ib; reflexivity]|]; destruct (v_drive c); reflexivity.
      - right. split.
        + (* count the transactions in flight *)
          assert (LE : forall d', (aob (v_drive c') d' <= aob (v_drive c) d')%nat) by (intros d'; destruct (v_drive c') as [b|]; [rewrite (E9 b eq_refl); cbn; lia|cbn; lia]).
          unfold aflight in E2. rewrite Sm, E7 in E2. apply (f_equal (@length B)) in E2. rewrite !app_length in E2. specialize (LE 1%nat) as LE1.
          destruct (v_sample c'), (v_valid c') eqn:V', (v_drive c') eqn:D', (v_valid c), (v_drive c) eqn:D; cbn in *;
            try (destruct (v_bus c') eqn:Bu'; [|exfalso; apply E8; reflexivity]); try (destruct (v_bus c) eqn:Bu; [|exfalso; apply Ib; reflexivity]); cbn in *; try lia; exfalso; try lia; try (specialize (E9 _ eq_refl); discriminate).
        + destruct (Nat.eq_dec (lastf (pipe c)) 0) as [Z0|]; [|lia]. exfalso. apply lastf_0 in Z0. unfold pipe in Z0. destruct lat as [|n].
          * inversion Z0; subst. congruence.
          * pose proof (delay_len (Datatypes.S n) (v_kdel c)) as DL. destruct (delay (Datatypes.S n) (v_kdel c)) as [|x l]; [discriminate DL|]. cbn [app tl] in *. inversion Z0 as [|? ? _ Z1]; subst.
            destruct (l ++ [v_ready c]) as [|y l'] eqn:EL; [destruct l; discriminate EL|]. cbn [hd] in R. inversion Z1; subst. congruence. }
    unfold aweight. rewrite Sm, E7. cbn [aob]. destruct SZ as [SZ|(SZ & LP)]; destruct (v_valid c), (v_drive c); cbn [aob] in *; try lia; exfalso; destruct Hv as [Hv|Hv]; try discriminate Hv; apply Hv; reflexivity.
  Qed.
  Lemma aflight_step c sent : ainv c sent -> aflight c <> [] -> exists o c', acalm o /\ step c o = Some (Ok c') /\ ainv c' sent /\ (aweight c' < aweight c)%nat /\ work (v_src c') (v_queue c') = work (v_src c) (v_queue c).
  Proof.
    intros I N. destruct (v_sample c) as [b|] eqn:Sm.
    - pose proof (step_ainv c sent VSink I Logic.I) as X. cbn [avst_step] in X. rewrite Sm in X. destruct (consume (v_sink c) b) as [(k1 & fs)|] eqn:Cn; cbn [bind] in X; destruct X as (c' & E & I'); [|discriminate E]. apply Ok_inj in E.
      exists VSink, c'. split; [exact Logic.I|]. split; [cbn [avst_step]; rewrite Sm, Cn; cbn [bind]; rewrite E; reflexivity|]. rewrite app_nil_r in I'. split; [exact I'|]. subst c'. unfold aweight, pipe. rewrite Sm. cbn. split; [lia|reflexivity].
    - destruct (v_valid c) eqn:V.
      + destruct (calm_edge c sent I Sm (or_introl V)) as (c' & A1 & A2 & A3 & A4 & A5). exists (VEdge false false), c'. split; [exact Logic.I|]. split; [exact A1|]. split; [exact A2|]. split; [exact A3|]. rewrite A4, A5. reflexivity.
      + destruct (v_drive c) as [b|] eqn:D.
        * destruct (calm_edge c sent I Sm ltac:(right; rewrite D; discriminate)) as (c' & A1 & A2 & A3 & A4 & A5). exists (VEdge false false), c'. split; [exact Logic.I|]. split; [exact A1|]. split; [exact A2|]. split; [exact A3|]. rewrite A4, A5. reflexivity.
        * destruct (v_pend c) as [b|] eqn:P; [|exfalso; apply N; unfold aflight; rewrite Sm, V, D, P; reflexivity].
          pose proof (step_ainv c sent VDrive I Logic.I) as X. cbn [avst_step] in X. rewrite P, D in X. destruct X as (c' & E & I'). exists VDrive, c'. split; [exact Logic.I|].
          split; [cbn [avst_step]; rewrite P, D, E; reflexivity|]. rewrite app_nil_r in I'. split; [exact I'|]. apply Ok_inj in E. subst c'. unfold aweight, pipe. cbn. rewrite Sm, V, D, P. cbn. split; [lia|reflexivity].
  Qed.
  Lemma adrain : forall w n c sent, (work (v_src c) (v_queue c) <= w)%nat -> (aweight c <= n)%nat -> ainv c sent ->
    exists os c', Forall acalm os /\ run c os = Some (Ok c') /\ ainv c' sent /\ aflight c' = [] /\ produce (v_src c') (v_queue c') = None.
  Proof.
    induction w as [w IHw] using (well_founded_induction Wf_nat.lt_wf). induction n as [n IHn] using (well_founded_induction Wf_nat.lt_wf). intros c sent Hw Hn I.
    destruct (aflight c) as [|b bs] eqn:FL.
    - destruct (produce (v_src c) (v_queue c)) as [r|] eqn:P.
      + assert (PN : v_pend c = None) by (unfold aflight in FL; apply app_eq_nil in FL; destruct FL as (_ & FL); apply app_eq_nil in FL; destruct FL as (_ & FL); apply app_eq_nil in FL; destruct FL as (_ & FL); destruct (v_pend c); [discriminate|reflexivity]).
        pose proof (step_ainv c sent VRun I Logic.I) as X. assert (ST : step c VRun = Some ('(b, s, q) <- r ;; Ok (mkAvst q s (Some b) (v_drive c) (v_valid c) (v_bus c) (v_sdel c) (v_ready c) (v_kdel c) (v_sample c) (v_sink c) (v_recv c)))) by (cbn [avst_step]; rewrite PN, P; reflexivity).
        rewrite ST in X. destruct X as (c' & E & I'). rewrite app_nil_r in I'. destruct r as [((b & s') & q')|]; [|discriminate E]. cbn [bind] in E, ST. apply Ok_inj in E.
        destruct I as [(k & sunk & done & ps & I1 & I2 & I3 & I4) _ _ _ _]. pose proof (work_less _ _ _ _ _ _ _ I2 P) as WL.
        assert (W' : work (v_src c') (v_queue c') = work s' q') by (subst c'; reflexivity).
        destruct (IHw (work s' q') ltac:(lia) (aweight c') c' sent ltac:(lia) ltac:(lia) I') as (os & c2 & G1 & G2 & G3 & G4 & G5).
        exists (VRun :: os), c2. split; [constructor; [exact Logic.I|exact G1]|]. split; [cbn [avst_run]; rewrite ST, E; exact G2|]. split; [exact G3|]. split; [exact G4|exact G5].
      + exists [], c. split; [constructor|]. split; [reflexivity|]. split; [exact I|]. split; [exact FL|exact P].
    - destruct (aflight_step c sent I ltac:(rewrite FL; discriminate)) as (o & c1 & C1 & C2 & C3 & C4 & C5).
      destruct (IHn (aweight c1) ltac:(lia) c1 sent ltac:(lia) ltac:(lia) C3) as (os & c2 & G1 & G2 & G3 & G4 & G5).
      exists (o :: os), c2. split; [constructor; assumption|]. split; [cbn [avst_run]; rewrite C2; exact G2|]. split; [exact G3|]. split; [exact G4|exact G5].
  Qed.

  (** ** The theorems *)
  Theorem avst_safe s k os : link s k [] [] -> Forall good (avst_sent os) ->
    match run (avst0 s k) os with
    | None => True
    | Some r => exists c, r = Ok c /\ exists done rest, avst_sent os = done ++ rest /\ Forall2 rcv done (v_recv c)
    end.
  Proof.
    intros H G. pose proof (run_ainv os _ _ (ainv0 s k H) G) as X. destruct (run (avst0 s k) os) as [r|]; [|exact Logic.I]. destruct X as (c & -> & [(k' & sunk & done & ps & I1 & I2 & I3 & I4) _ _ _ _]). cbn [app] in I3. exists c. split; [reflexivity|].
    apply Forall2_app_inv_r in I4. destruct I4 as (d1 & d2 & A1 & A2 & ->). exists d1, (d2 ++ ps). rewrite app_assoc. split; [exact I3|exact A1].
  Qed.
  Theorem avst_live s k os c : link s k [] [] -> Forall good (avst_sent os) -> run (avst0 s k) os = Some (Ok c) ->
    exists os' c', Forall acalm os' /\ run c os' = Some (Ok c') /\ Forall2 rcv (avst_sent os) (v_recv c').
  Proof.
    intros H G R. pose proof (run_ainv os _ _ (ainv0 s k H) G) as X. rewrite R in X. destruct X as (c0 & E & I). apply Ok_inj in E. subst c0. cbn [app] in I.
    destruct (adrain _ _ c _ (le_n _) (le_n _) I) as (os' & c2 & D1 & D2 & [(k' & sunk & done & ps & J1 & J2 & J3 & J4) _ _ _ _] & D4 & D5).
    exists os', c2. split; [exact D1|]. split; [exact D2|]. rewrite D4 in J1. cbn in J1. injection J1 as <- <-. rewrite app_nil_r in J4.
    pose proof (link_beat _ _ _ _ J2) as X. rewrite D5 in X. subst ps. rewrite app_nil_r in J3. rewrite J3. exact J4.
  Qed.
End Avst.
