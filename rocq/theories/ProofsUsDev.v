(** Requester side of the UltraScale device models. *)
From Verif Require Import Base BaseProofs ModelUtils ModelTlp ModelFrames ModelUs ModelTags ModelChan SpecMem ProofsMemE2e ModelUsDev SpecUsDev.
From Coq Require Import Lia Permutation.

(** ** One step *)
Record launched (o : uopt) (u : tlp_us) (s : udev) (u' : tlp_us) (s' : udev) : Prop := {
  la_u : u' = if o_client o then u else on_tlp (set_tag (tag (u_tlp u'))) u;
  la_range : 0 <= tag (u_tlp u') < 256;
  la_free : w_active s (tag (u_tlp u')) = None;
  la_active : w_active s' = fset (tag (u_tlp u')) (Some u') (w_active s);
  la_log : w_log s' = w_log s ++ [EIssue u' (tag_range o s)];
  la_tags : w_tags s' = w_tags s ++ (if o_client o then [] else [tag (u_tlp u')]);
  la_int : o_client o = false -> 0 <= tag (u_tlp u') < tag_range o s;
  la_credit : w_credit s' = w_credit s + us_credits u';
  la_a : w_a s' = w_a s; la_b : w_b s' = w_b s; la_r : w_r s' = w_r s; la_np : w_np s' = w_np s; la_cfg : w_cfg s' = w_cfg s;
  la_seqs : w_seqs s' = w_seqs s; la_hc : w_hc s' = w_hc s; la_dc : w_dc s' = w_dc s; la_rcq : w_rcq s' = w_rcq s; la_lerr : w_lerr s' = w_lerr s;
  la_tag : w_tag s' = w_tag s }.
Lemma free_tag_range n tag0 act k g : free_tag k n tag0 act = Some g -> 0 < n -> 0 <= g < n /\ act g = None.
Proof.
  revert tag0. induction k as [|k IH]; cbn; intros t H N; [discriminate|].
  destruct (act ((t + 1) mod n)) eqn:A; [eauto|]. injection H as <-. split; [apply Z.mod_pos_bound; exact N|exact A].
Qed.
Lemma launch_spec o u s u' s' : launch o u s = Ok (u', s') -> launched o u s u' s'.
Proof.
  unfold launch. destruct (o_client o) eqn:CL; cbn [bind].
  - unfold get_active. destruct (_ && _) eqn:R; cbn [bind]; [|discriminate].
    destruct (w_active s (tag (u_tlp u))) eqn:A; cbn [bind py_assert]; [discriminate|].
    destruct (tlp_check _) as [[|]|]; cbn [bind py_assert]; try discriminate.
    intros H. apply Ok_inj, pair_equal_spec in H as [<- <-].
    constructor; cbn; auto; rewrite ?CL, ?app_nil_r; auto; try lia; congruence.
  - destruct (free_tag _ _ _ _) as [g|] eqn:F; cbn [bind]; [|discriminate].
    unfold get_active. destruct (_ && _) eqn:R; cbn [bind]; [|discriminate].
    destruct (w_active _ (tag (u_tlp (on_tlp (set_tag g) u)))) eqn:A; cbn [bind py_assert]; [discriminate|].
    destruct (tlp_check _) as [[|]|]; cbn [bind py_assert]; try discriminate.
    intros H. apply Ok_inj, pair_equal_spec in H as [<- <-].
    assert (T : tag (u_tlp (on_tlp (set_tag g) u)) = g) by reflexivity. rewrite T in R.
    assert (N : 0 < tag_range o s).
    { destruct (tag_range o s) eqn:E; [cbn in F; discriminate|lia|cbn in F; discriminate]. }
    constructor; cbn; auto; rewrite ?CL; auto; try lia.
    intros _. apply free_tag_range in F; auto. apply F.
Qed.

Ltac open_launch := match goal with L : launched _ _ _ _ _ |- _ => destruct L end.
Inductive uloop (o : uopt) : udev -> tlp_us -> udev -> Prop :=
| ul_credit s u : w_credit s + us_credits u > co_cpld (o_core o) -> uloop o s u (set_w_b (BCredit u) (set_w_rel false s))
| ul_tag s u : w_credit s + us_credits u <= co_cpld (o_core o) -> o_client o = false -> uloop o s u (set_w_b (BTag u) (set_w_tag false s))
| ul_drop s u : w_credit s + us_credits u <= co_cpld (o_core o) -> uloop o s u (set_w_b BIdle (note (EDrop u) s))
| ul_issue s u u' s1 : w_credit s + us_credits u <= co_cpld (o_core o) -> launched o u s u' s1 -> uloop o s u (set_w_b (BSend u') s1).
Inductive ueff (o : uopt) (s : udev) : ulabel -> udev -> Prop :=
| uf_cfg c : ueff o s (LConfig c) (set_w_cfg c s)
| uf_idle l : ueff o s l s
| uf_drop u f : w_a s = AIdle -> ueff o s (LFrame f) (note (EDrop u) (note (EAccept u) s))
| uf_issue u f u' s1 : w_a s = AIdle -> needs_answer (u_tlp u) = true -> launched o u (note (EAccept u) s) u' s1 ->
    w_np s = [] -> ueff o s (LFrame f) (set_w_a (ASend u') s1)
| uf_put u f : w_a s = AIdle -> needs_answer (u_tlp u) = true ->
    (match w_np s with [] => true | _ => false end) && (w_credit s + us_credits u <=? co_cpld (o_core o)) && (o_client o || (w_avail s >? 0)) = false ->
    ueff o s (LFrame f) (np_put u (note (EAccept u) s))
| uf_posted u f n : w_a s = AIdle -> needs_answer (u_tlp u) = false -> ueff o s (LFrame f) (set_w_a (ASend u) (note (EIssue u n) (note (EAccept u) s)))
| uf_space u : w_a s = AFull u -> ueff o s LSpace (np_put u s)
| uf_senta u : w_a s = ASend u -> ueff o s LSentA (set_w_a AIdle (set_w_seqs (w_seqs s ++ [seq_num u]) s))
| uf_loop l u s0 s' : (w_b s = BIdle /\ (exists r, w_np s = u :: r /\ s0 = set_w_deq true (set_w_np r s)) \/ s0 = s /\ (w_b s = BCredit u \/ w_b s = BTag u /\ w_tag s = true)) ->
    uloop o s0 u s' -> ueff o s l s'
| uf_sentb u : w_b s = BSend u -> ueff o s LSentB (set_w_b BIdle (set_w_seqs (w_seqs s ++ [seq_num u]) s))
| uf_cpl c ty s' : fmt_type c = Ok ty -> type_in ty cpl_types = true -> rx_cpl o c s = Ok s' -> ueff o s (LCpl c) s'
| uf_out u r : w_r s = RIdle -> w_rcq s = u :: r -> ueff o s LOut (note (EOut u) (set_w_r (RSend u) (set_w_buf (w_hc s) (w_dc s) r s)))
| uf_outdone u : w_r s = RSend u ->
    ueff o s LOutDone (set_w_r RIdle (set_w_buf (Z.max (w_hc s - 1) 0) (Z.max (w_dc s - (us_credits u + 1)) 0) (w_rcq s) s))
| uf_tagout t r : w_tags s = t :: r -> ueff o s LTagOut (note (ETag t) (set_w_tags r s))
| uf_seqout n r : w_seqs s = n :: r -> ueff o s LSeqOut (note (ESeq n) (set_w_seqs r s))
| uf_errout : w_lerr s > 0 -> ueff o s LErrOut (note EErr (set_w_lerr (if co_plus (o_core o) then w_lerr s - 1 else 0) s)).

Lemma np_loop_eff o u s s' : np_loop o u s = Ok s' -> uloop o s u s'.
Proof.
  unfold np_loop. destruct (_ >? _) eqn:C; [intros H; apply Ok_inj in H; subst; apply ul_credit; lia|].
  destruct (negb (o_client o) && _) eqn:T; [intros H; apply Ok_inj in H; subst; apply ul_tag; [lia|]; destruct (o_client o); [discriminate|reflexivity]|].
  destruct (bus_master u s) as [[|]|]; cbn [bind negb]; try discriminate.
  - destruct (launch o u s) as [[u' s1]|] eqn:L; cbn [bind]; [|discriminate].
    intros H; apply Ok_inj in H; subst. apply ul_issue; [lia|apply launch_spec; exact L].
  - intros H; apply Ok_inj in H; subst; apply ul_drop; lia.
Qed.
Lemma np_answer t np : is_nonposted t = Ok np -> needs_answer t = np.
Proof.
  unfold is_nonposted, get_fc_type, needs_answer. destruct (fmt_type t) as [ty|]; cbn [bind]; [|discriminate].
  destruct ty; cbn; intros H; try discriminate H; apply Ok_inj in H; auto.
Qed.
Lemma ustep_eff o l s s' : ustep o l s = Ok s' -> ueff o s l s'.
Proof.
  destruct l as [c|f| | | | | | |c| | | | | ]; cbn [ustep]; intros H.
  - apply Ok_inj in H; subst; constructor.
  - destruct (w_a s) eqn:A; try (apply Ok_inj in H; subst; apply uf_idle).
    unfold rq_frame in H. destruct (unpack_us_rq (o_parity o) f) as [u0|] eqn:UN; cbn [bind] in H; [|discriminate].
    destruct (discontinue u0); [apply Ok_inj in H; subst; apply uf_idle|]. cbv zeta in H.
    set (u := if rid_enable u0 then u0 else _) in H. clearbody u.
    destruct (is_nonposted (u_tlp u)) as [[|]|] eqn:NP; cbn [bind] in H; [| |discriminate]; apply np_answer in NP.
    + destruct (_ && _ && _) eqn:D.
      * destruct (bus_master u _) as [[|]|]; cbn [bind negb] in H; try discriminate.
        -- destruct (_ <? _); cbn [py_assert bind] in H; [|discriminate].
           destruct (launch o u _) as [[u' s1]|] eqn:L; cbn [bind] in H; [|discriminate].
           apply Ok_inj in H; subst. apply launch_spec in L. eapply uf_issue; eauto.
           cbn in D. destruct (w_np s); [auto|discriminate].
        -- apply Ok_inj in H; subst. apply uf_drop; auto.
      * apply Ok_inj in H; subst. apply uf_put; auto.
    + destruct (bus_master u _) as [[|]|]; cbn [bind negb] in H; try discriminate.
      * destruct (tlp_check _) as [[|]|]; cbn [py_assert bind] in H; try discriminate.
        apply Ok_inj in H; subst. apply uf_posted; auto.
      * apply Ok_inj in H; subst. apply uf_drop; auto.
  - destruct (w_a s) eqn:A; try (apply Ok_inj in H; subst; apply uf_idle).
    destruct (w_deq s); apply Ok_inj in H; subst; [now apply uf_space|apply uf_idle].
  - destruct (w_a s) eqn:A; apply Ok_inj in H; subst; try apply uf_idle. now apply uf_senta.
  - destruct (w_b s) eqn:B; try (apply Ok_inj in H; subst; apply uf_idle).
    destruct (w_np s) as [|u r] eqn:N; [apply Ok_inj in H; subst; apply uf_idle|].
    apply np_loop_eff in H. eapply uf_loop; [|exact H]. left. split; [auto|]. exists r. auto.
  - destruct (w_b s) eqn:B; try (apply Ok_inj in H; subst; apply uf_idle).
    destruct (w_rel s); [|apply Ok_inj in H; subst; apply uf_idle]. apply np_loop_eff in H. eapply uf_loop; [|exact H]. right. auto.
  - destruct (w_b s) eqn:B; try (apply Ok_inj in H; subst; apply uf_idle).
    destruct (w_tag s) eqn:T; [|apply Ok_inj in H; subst; apply uf_idle]. apply np_loop_eff in H. eapply uf_loop; [|exact H]. right. auto.
  - destruct (w_b s) eqn:B; apply Ok_inj in H; subst; try apply uf_idle. now apply uf_sentb.
  - destruct (fmt_type c) as [ty|] eqn:T; cbn [bind] in H; [|discriminate].
    destruct (type_in ty cpl_types) eqn:TI; [|apply Ok_inj in H; subst; apply uf_idle]. eapply uf_cpl; eauto.
  - destruct (w_r s) eqn:R; [|apply Ok_inj in H; subst; apply uf_idle].
    destruct (w_rcq s) as [|u r] eqn:N; [apply Ok_inj in H; subst; apply uf_idle|].
    destruct (pack_us_rc u); cbn [bind] in H; [|discriminate]. apply Ok_inj in H; subst. now apply uf_out.
  - destruct (w_r s) eqn:R; apply Ok_inj in H; subst; [apply uf_idle|now apply uf_outdone].
  - destruct (w_tags s) eqn:R; apply Ok_inj in H; subst; [apply uf_idle|now apply uf_tagout].
  - destruct (w_seqs s) eqn:R; apply Ok_inj in H; subst; [apply uf_idle|now apply uf_seqout].
  - destruct (w_lerr s >? 0) eqn:R; apply Ok_inj in H; subst; [apply uf_errout; lia|apply uf_idle].
Qed.
Lemma urun_app o a b s : urun o (a ++ b) s = (s' <- urun o a s ;; urun o b s').
Proof. revert s. induction a as [|x a IH]; intros s; cbn; [reflexivity|]. destruct (ustep o x s); cbn; auto. Qed.
(** Invariants *)
Lemma urun_inv o (P : udev -> Prop) : (forall s l s', P s -> ueff o s l s' -> P s') ->
  forall ls s s', P s -> urun o ls s = Ok s' -> P s'.
Proof.
  intros HP ls. induction ls as [|l ls IH]; cbn; intros s s' I H; [apply Ok_inj in H; now subst|].
  destruct (ustep o l s) as [s1|] eqn:E; cbn in H; [|discriminate]. eapply IH; [|exact H]. eapply HP; [exact I|]. apply ustep_eff. exact E.
Qed.

(** ** The queue of requests *)
Definition qok (s : udev) : Prop := Forall (fun u => needs_answer (u_tlp u) = true) (w_np s ++ held_a (w_a s) ++ held_b (w_b s)).
Lemma needs_set_tag g t : needs_answer (set_tag g t) = needs_answer t.
Proof. reflexivity. Qed.
Lemma put_fields u s : w_active (np_put u s) = w_active s /\ w_log (np_put u s) = w_log s /\ w_tags (np_put u s) = w_tags s /\
  w_seqs (np_put u s) = w_seqs s /\ w_b (np_put u s) = w_b s /\ w_r (np_put u s) = w_r s /\ w_hc (np_put u s) = w_hc s /\ w_dc (np_put u s) = w_dc s /\
  w_rcq (np_put u s) = w_rcq s /\ w_lerr (np_put u s) = w_lerr s /\ w_tag (np_put u s) = w_tag s /\ sending_a (w_a (np_put u s)) = [] /\
  w_np (np_put u s) ++ held_a (w_a (np_put u s)) = w_np s ++ [u].
Proof. unfold np_put. destruct (_ <=? _); cbn; repeat split; auto. now rewrite app_nil_r. Qed.
Lemma qok_step o s l s' : qok s -> ueff o s l s' -> qok s'.
Proof.
  unfold qok. rewrite !Forall_app. intros (F1 & F2 & F3) E. destruct E; cbn; auto.
  - open_launch. cbn in *. rewrite la_np0, la_b0. auto.
  - pose proof (put_fields u (note (EAccept u) s)) as (_ & _ & _ & _ & B & _ & _ & _ & _ & _ & _ & _ & N).
    rewrite B. cbn in *. assert (X : Forall (fun v => needs_answer (u_tlp v) = true) (w_np s ++ [u])) by (apply Forall_app; auto).
    rewrite <- N in X. apply Forall_app in X as [X1 X2]. auto.
  - pose proof (put_fields u s) as (_ & _ & _ & _ & B & _ & _ & _ & _ & _ & _ & _ & N).
    rewrite B. cbn in *. rewrite H in F2. cbn in F2. assert (X : Forall (fun v => needs_answer (u_tlp v) = true) (w_np s ++ [u])) by (apply Forall_app; auto).
    rewrite <- N in X. apply Forall_app in X as [X1 X2]. auto.
  - assert (X : needs_answer (u_tlp u) = true /\ Forall (fun v => needs_answer (u_tlp v) = true) (w_np s0) /\ w_a s0 = w_a s).
    { destruct H as [[B [r [N ->]]]|[-> [B|[B _]]]]; cbn; try (rewrite B in F3; cbn in F3; apply Forall_inv in F3; auto).
      rewrite N in F1. inversion F1; auto. }
    destruct X as (X1 & X2 & X3). destruct H0; cbn; rewrite ?X3; auto.
    open_launch. rewrite la_np0, la_a0, X3. auto.
  - unfold rx_cpl in H1. destruct (existsb _ _); [|apply Ok_inj in H1; subst; auto].
    destruct (get_active s (tag c)); cbn [bind] in H1; [|discriminate]. destruct (judge _ _) as [[u b]|]; cbn [bind] in H1; [|discriminate].
    apply Ok_inj in H1. subst s'. destruct b, (_ && _); cbn; auto.
Qed.
Lemma qok_run o c ls s : urun o ls (udev0 c) = Ok s -> qok s.
Proof. apply urun_inv; [intros; eapply qok_step; eauto|]. unfold qok. cbn. constructor. Qed.

(** ** A completion *)
Record received (o : uopt) (c : tlp) (s s' : udev) (u : tlp_us) (b ok : bool) : Prop := {
  rx_range : 0 <= tag c < 256;
  rx_judge : judge (w_active s (tag c)) c = Ok (u, b);
  rx_ok : ok = (w_hc s + 1 <=? co_cplh (o_core o)) && (w_dc s + us_credits u + 1 <=? co_cpld (o_core o));
  rx_active : w_active s' = if b then fset (tag c) None (w_active s) else w_active s;
  rx_log : w_log s' = w_log s ++ [ECpl c u ok];
  rx_hc : w_hc s' = if ok then w_hc s + 1 else w_hc s;
  rx_dc : w_dc s' = if ok then w_dc s + (us_credits u + 1) else w_dc s;
  rx_rcq : w_rcq s' = if ok then w_rcq s ++ [u] else w_rcq s;
  rx_lerr : w_lerr s' = if ok then w_lerr s else if co_plus (o_core o) then w_lerr s + 1 else 1;
  rx_credit : w_credit s' = Z.max (w_credit s - us_credits u) 0;
  rx_a : w_a s' = w_a s; rx_b : w_b s' = w_b s; rx_r : w_r s' = w_r s; rx_np : w_np s' = w_np s; rx_cfg : w_cfg s' = w_cfg s;
  rx_seqs : w_seqs s' = w_seqs s; rx_tags : w_tags s' = w_tags s; rx_tag : w_tag s' = w_tag s }.
Lemma rx_spec o c s s' : rx_cpl o c s = Ok s' -> s' = s \/ exists u b ok, received o c s s' u b ok.
Proof.
  unfold rx_cpl. destruct (existsb _ _); [|intros H; apply Ok_inj in H; auto].
  unfold get_active. destruct (_ && _) eqn:R; cbn [bind]; [|discriminate].
  destruct (judge _ c) as [[u b]|] eqn:J; cbn [bind]; [|discriminate].
  cbv zeta. intros H. right. apply Ok_inj in H. exists u, b.
  exists ((w_hc s + 1 <=? co_cplh (o_core o)) && (w_dc s + us_credits u + 1 <=? co_cpld (o_core o))).
  destruct b; cbn [w_hc w_dc set_w_rel set_w_credit set_w_active] in H; destruct (_ && _) eqn:K in H; subst s'; constructor; cbn; rewrite ?K; auto; lia.
Qed.
Lemma last_offset_all t : get_last_be_offset t = 3 - high_lane (if tlen t =? 1 then first_be t else last_be t).
Proof.
  unfold get_last_be_offset. cbv zeta. set (be := if tlen t =? 1 then _ else _). clearbody be.
  assert (B : 0 <= Z.land be 15 < 16) by (change 15 with (Z.ones 4); rewrite Z.land_ones by lia; apply Z.mod_pos_bound; lia).
  assert (E1 : Z.land be 14 = Z.land (Z.land be 15) 14) by (rewrite <- Z.land_assoc; reflexivity).
  assert (E2 : Z.land be 12 = Z.land (Z.land be 15) 12) by (rewrite <- Z.land_assoc; reflexivity).
  assert (E : high_lane be = high_lane (Z.land be 15)).
  { unfold high_lane. rewrite !Z.land_spec. change (Z.testbit 15 3) with true. change (Z.testbit 15 2) with true.
    change (Z.testbit 15 1) with true. change (Z.testbit 15 0) with true. now rewrite !andb_true_r. }
  rewrite E, E1, E2. revert B. generalize (Z.land be 15). intros b B.
  apply lane_enum in B. cbn in B. repeat destruct B as [B|B]; try contradiction; rewrite <- B; reflexivity.
Qed.
Lemma byte_address_eq r c : address r + get_first_be_offset r + get_be_byte_count r - byte_count c = byte_address r c.
Proof. unfold byte_address, last_byte, get_be_byte_count. rewrite last_offset_all. lia. Qed.
Definition code1 (r c : tlp) : Z :=
  if negb (matches r c) then MISMATCH
    else if negb (status c =? SC) then BAD_STATUS
    else if memory_read r && without_data c then INVALID_LENGTH
    else if memory_read r && negb (lower_address c =? byte_address r c mod 128) then INVALID_ADDRESS
    else if ep c then POISONED
    else NORMAL_TERMINATION.
Definition addr1 (r c : tlp) : Z :=
  if matches r c && (status c =? SC) && memory_read r && (lower_address c =? byte_address r c mod 128)
              then byte_address r c mod 4096 else lower_address c.
Lemma set_lower_same t x : lower_address t = x -> set_lower_address x t = t.
Proof. destruct t; cbn. intros ->. reflexivity. Qed.
Lemma judge_none c u b : judge None c = Ok (u, b) -> b = false /\ u_tlp u = tlp_copy c /\ error_code u = INVALID_TAG /\ request_completed u = 0 /\ discontinue u = false.
Proof. cbn. destruct (ep c); intros H; apply Ok_inj, pair_equal_spec in H as [<- <-]; auto. Qed.
Lemma judge_some q c u b ty : fmt_type c = Ok ty -> type_in ty cpl_types = true -> judge (Some q) c = Ok (u, b) ->
  b = matches (u_tlp q) c && final (u_tlp q) c /\ u_tlp u = set_lower_address (addr1 (u_tlp q) c) (tlp_copy c) /\
  error_code u = code1 (u_tlp q) c /\ request_completed u = (if b then 1 else 0) /\ discontinue u = false.
Proof.
  intros T TI. unfold judge. cbv zeta. set (r := u_tlp q). clearbody r. unfold addr1, code1.
  assert (M : negb (id_eqb (requester_id c) (requester_id r)) || negb (attr c =? attr r) || negb (tc c =? tc r) = negb (matches r c)).
  { unfold matches. now destruct (id_eqb _ _), (attr c =? attr r), (tc c =? tc r). }
  rewrite M. destruct (matches r c) eqn:MA; cbn [negb andb].
  2:{ intros H; apply Ok_inj, pair_equal_spec in H as [<- <-]. repeat split; auto. destruct (ep c); cbn; now rewrite set_lower_same. destruct (ep c); reflexivity. destruct (ep c); reflexivity. }
  unfold final. destruct (status c =? SC) eqn:ST; cbn [negb andb orb].
  2:{ intros H; apply Ok_inj, pair_equal_spec in H as [<- <-]. repeat split; auto. destruct (ep c); cbn; now rewrite set_lower_same. destruct (ep c); reflexivity. }
  destruct (fmt_type r) as [rt|] eqn:RT; cbn [bind]; [|discriminate].
  assert (MR : type_in rt [MEM_READ; MEM_READ_64] = memory_read r) by (unfold memory_read; rewrite RT; now destruct rt).
  rewrite MR. destruct (memory_read r); cbn [negb andb orb].
  2:{ intros H; apply Ok_inj, pair_equal_spec in H as [<- <-]. repeat split; auto. destruct (ep c); cbn; now rewrite set_lower_same. destruct (ep c); reflexivity. destruct (ep c); reflexivity. }
  rewrite T. cbn [bind].
  assert (WD : type_in ty [CPL; CPL_LOCKED] = without_data c) by (unfold without_data; rewrite T; now destruct ty).
  rewrite WD. rewrite byte_address_eq. set (A := byte_address r c). clearbody A.
  change 0x7f with (Z.ones 7). change 0xfff with (Z.ones 12). change 3 with (Z.ones 2). rewrite !Z.land_ones by lia.
  change (2 ^ 7) with 128. change (2 ^ 12) with 4096. change (2 ^ 2) with 4.
  set (u0 := if ep c then _ else _).
  assert (U : u_tlp u0 = tlp_copy c /\ request_completed u0 = 0 /\ discontinue u0 = false) by (unfold u0; destruct (ep c); auto).
  destruct U as (U1 & U2 & U3).
  assert (U4 : error_code u0 = if ep c then POISONED else NORMAL_TERMINATION) by (unfold u0; destruct (ep c); auto). clearbody u0.
  assert (L : lower_address (u_tlp (if negb (lower_address c =? A mod 128) then with_code INVALID_ADDRESS u0 else on_tlp (set_lower_address (A mod 4096)) u0)) mod 4 = lower_address c mod 4).
  { destruct (lower_address c =? A mod 128) eqn:Q; cbn [negb with_code on_tlp u_tlp].
    - replace (lower_address _) with (A mod 4096) by reflexivity. apply Z.eqb_eq in Q. rewrite Q.
      pose proof (Z.div_mod A 128). pose proof (Z.div_mod A 4096). lia.
    - rewrite U1. reflexivity. }
  rewrite L. replace (tlen c * 4) with (4 * tlen c) by lia.
  assert (LC : lower_address (tlp_copy c) = lower_address c) by reflexivity.
  destruct (without_data c), (byte_count c <=? 4 * tlen c - lower_address c mod 4), (lower_address c =? A mod 128); cbn [negb orb];
    intros H; apply Ok_inj, pair_equal_spec in H as [<- <-]; cbn; rewrite ?U1; repeat split; auto; now rewrite set_lower_same.
Qed.

(** ** The table of requests *)
Lemma opened_snoc l e : opened (l ++ [e]) = opened_from (opened l) [e].
Proof.
  unfold opened. generalize (@nil tlp). induction l as [|x l IH]; intros o; [reflexivity|].
  destruct x; cbn [app opened_from]; apply IH.
Qed.
Lemma filter_all {A} (f : A -> bool) l : (forall x, In x l -> f x = true) -> filter f l = l.
Proof. induction l; cbn; intros H; [auto|]. rewrite H by auto. f_equal. auto. Qed.
(** the table holds the open requests *)
Definition holds (act : Z -> option tlp_us) (open : list tlp) : Prop :=
  NoDup (map tag open) /\ (forall t u, act t = Some u -> In (u_tlp u) open /\ tag (u_tlp u) = t) /\
  (forall r, In r open -> 0 <= tag r < 256 /\ exists u, act (tag r) = Some u /\ u_tlp u = r).
Lemma nodup_in (l : list tlp) x y : NoDup (map tag l) -> In x l -> In y l -> tag x = tag y -> x = y.
Proof.
  induction l as [|z l IH]; cbn; [tauto|]. intros N X Y E. inversion N as [|a b N1 N2]; subst.
  destruct X as [->|X], Y as [->|Y]; auto.
  - exfalso. apply N1. apply in_map_iff. exists y. auto.
  - exfalso. apply N1. apply in_map_iff. exists x. auto.
Qed.
Lemma holds_find act open t : holds act open -> find (fun r => tag r =? t) open = option_map u_tlp (act t).
Proof.
  intros (N & H1 & H2). destruct (find _ open) as [r|] eqn:F.
  - apply find_some in F as [F E]. apply Z.eqb_eq in E. destruct (H2 r F) as (_ & u & A & <-). subst t. now rewrite A.
  - destruct (act t) as [u|] eqn:A; [|reflexivity]. destruct (H1 t u A) as [I E].
    pose proof (find_none _ _ F _ I) as X. cbn in X. rewrite E, Z.eqb_refl in X. discriminate.
Qed.
Lemma holds_issue act open u : holds act open -> act (tag (u_tlp u)) = None -> 0 <= tag (u_tlp u) < 256 ->
  holds (fset (tag (u_tlp u)) (Some u) act) (open ++ [u_tlp u]).
Proof.
  intros (N & H1 & H2) A R. split; [|split].
  - rewrite map_app. cbn. apply NoDup_rev in N. rewrite <- (rev_involutive (_ ++ _)). apply NoDup_rev. rewrite rev_app_distr. cbn.
    constructor; [|exact N]. rewrite <- in_rev. intros I. apply in_map_iff in I as (r & E & I).
    destruct (H2 r I) as (_ & v & B & _). pose proof (eq_trans (eq_sym A) (eq_trans (f_equal act (eq_sym E)) B)) as X. discriminate X.
  - intros t v. unfold fset. destruct (t =? tag (u_tlp u)) eqn:E; intros H.
    + injection H as <-. apply Z.eqb_eq in E. split; [apply in_or_app; right; left; reflexivity|auto].
    + destruct (H1 t v H). split; [apply in_or_app|]; auto.
  - intros r I. unfold fset. apply in_app_or in I as [I|[<-|[]]].
    + destruct (H2 r I) as (R1 & v & B & E). split; [exact R1|]. exists v.
      destruct (tag r =? tag (u_tlp u)) eqn:Q; [apply Z.eqb_eq in Q; rewrite Q, A in B; discriminate|auto].
    + split; [exact R|]. exists u. rewrite Z.eqb_refl. auto.
Qed.
Lemma nodup_filter (f : tlp -> bool) l : NoDup (map tag l) -> NoDup (map tag (filter f l)).
Proof.
  induction l as [|x l IH]; cbn; [auto|]. intros N. inversion N; subst. destruct (f x); cbn; auto. constructor; auto.
  intros I. apply H1. apply in_map_iff in I as (y & E & I). apply filter_In in I as [I _]. rewrite <- E. now apply in_map.
Qed.
Lemma holds_end act open c : holds act open ->
  holds (match act (tag c) with Some q => if matches (u_tlp q) c && final (u_tlp q) c then fset (tag c) None act else act | None => act end)
    (filter (fun r => negb (ends_request c r)) open).
Proof.
  intros H. pose proof H as (N & H1 & H2).
  assert (K : forall b : bool, (b = true <-> exists q, act (tag c) = Some q /\ matches (u_tlp q) c && final (u_tlp q) c = true) ->
    holds (if b then fset (tag c) None act else act) (filter (fun r => negb (ends_request c r)) open)).
  { intros b Hb. split; [now apply nodup_filter|split].
    - intros t u A. assert (A' : act t = Some u /\ (b = true -> t <> tag c)).
      { destruct b; unfold fset in A; [destruct (t =? tag c) eqn:E; [discriminate|apply Z.eqb_neq in E; auto]|split; auto; discriminate]. }
      destruct A' as [A1 A2]. destruct (H1 t u A1) as [I E]. split; [|exact E]. apply filter_In. split; [exact I|].
      unfold ends_request. destruct (tag (u_tlp u) =? tag c) eqn:Q; [|reflexivity]. apply Z.eqb_eq in Q. cbn [andb].
      destruct (matches (u_tlp u) c && final (u_tlp u) c) eqn:M; [|reflexivity]. exfalso.
      apply A2; [|congruence]. apply Hb. exists u. split; [congruence|exact M].
    - intros r I. apply filter_In in I as [I X]. destruct (H2 r I) as (R & u & A & E). split; [exact R|]. exists u. split; [|exact E].
      destruct b; [|exact A]. unfold fset. destruct (tag r =? tag c) eqn:Q; [|exact A]. exfalso.
      apply Z.eqb_eq in Q. destruct (proj1 Hb eq_refl) as (q & A' & M). rewrite Q in A. rewrite A in A'. injection A' as <-.
      rewrite E in M. unfold ends_request in X. rewrite Q, Z.eqb_refl in X. cbn [andb] in X. rewrite M in X. discriminate. }
  destruct (act (tag c)) as [q|] eqn:A.
  - specialize (K (matches (u_tlp q) c && final (u_tlp q) c)).
    destruct (_ && _) eqn:M; apply K; split; intros; try discriminate; eauto.
    destruct H0 as (q' & E & M'). injection E as <-. congruence.
  - apply (K false). split; [discriminate|]. intros (q & E & _). discriminate.
Qed.
Lemma received_active o c s s' u b ok ty : fmt_type c = Ok ty -> type_in ty cpl_types = true -> received o c s s' u b ok ->
  w_active s' = match w_active s (tag c) with Some q => if matches (u_tlp q) c && final (u_tlp q) c then fset (tag c) None (w_active s) else w_active s | None => w_active s end.
Proof.
  intros T TI []. rewrite rx_active0. destruct (w_active s (tag c)) as [q|].
  - eapply judge_some in rx_judge0 as (-> & _); eauto.
  - apply judge_none in rx_judge0 as (-> & _). reflexivity.
Qed.
Definition tbl (s : udev) : Prop := qok s /\ holds (w_active s) (opened (w_log s)).
Lemma tbl_step o s l s' : tbl s -> ueff o s l s' -> tbl s'.
Proof.
  intros [Q T] E. split; [eapply qok_step; eauto|]. unfold qok in Q. destruct E; cbn; rewrite ?opened_snoc; auto.
  - open_launch. rewrite la_active0, la_log0. cbn [note w_log w_active] in *. rewrite !opened_snoc. cbn [opened_from].
    assert (NA : needs_answer (u_tlp u') = true) by (rewrite la_u0; destruct (o_client o); [|cbn; rewrite needs_set_tag]; auto).
    rewrite NA. now apply holds_issue.
  - destruct (put_fields u (note (EAccept u) s)) as (-> & -> & _). cbn. rewrite opened_snoc. exact T.
  - cbn. rewrite H0. exact T.
  - destruct (put_fields u s) as (-> & -> & _). exact T.
  - rewrite !Forall_app in Q. destruct Q as (F1 & F2 & F3).
    assert (X : needs_answer (u_tlp u) = true /\ w_active s0 = w_active s /\ w_log s0 = w_log s).
    { destruct H as [[B [r [N ->]]]|[-> [B|[B _]]]]; cbn; try (rewrite B in F3; cbn in F3; apply Forall_inv in F3; auto).
      rewrite N in F1. inversion F1; auto. }
    destruct X as (X1 & X2 & X3). destruct H0; cbn; rewrite ?X2, ?X3, ?opened_snoc; auto.
    open_launch. rewrite la_active0, la_log0, X2, X3, opened_snoc. cbn [opened_from].
    assert (NA : needs_answer (u_tlp u') = true) by (rewrite la_u0; destruct (o_client o); [|cbn; rewrite needs_set_tag]; auto).
    rewrite NA. rewrite X2 in la_free0. now apply holds_issue.
  - apply rx_spec in H1 as [->|(u & b & ok & RX)]; [exact T|].
    rewrite (received_active _ _ _ _ _ _ _ _ H H0 RX). destruct RX. rewrite rx_log0, opened_snoc. cbn [opened_from]. now apply holds_end.
Qed.
Lemma tbl_run o c ls s : urun o ls (udev0 c) = Ok s -> tbl s.
Proof.
  apply urun_inv; [intros; eapply tbl_step; eauto|]. split; [unfold qok; cbn; constructor|].
  split; [constructor|]. split; [intros t u H; discriminate|intros r []].
Qed.
(** distinct tags *)
Lemma us_tags_distinct o c ls s : urun o ls (udev0 c) = Ok s ->
  NoDup (map tag (opened (w_log s))) /\ Forall (fun r => 0 <= tag r < 256) (opened (w_log s)).
Proof. intros H. apply tbl_run in H as (_ & N & _ & R). split; [exact N|]. apply Forall_forall. intros r I. apply (R r I). Qed.

(** ** Completions are judged against the open requests *)
Fixpoint all_judged (open : list tlp) (l : list uevent) : Prop :=
  match l with
  | [] => True
  | e :: l => match e with ECpl c u _ => judged open c u | _ => True end /\ all_judged (opened_from open [e]) l
  end.
Lemma all_judged_app o a b : all_judged o (a ++ b) <-> all_judged o a /\ all_judged (opened_from o a) b.
Proof.
  revert o. induction a as [|e a IH]; intros o; cbn [app all_judged]; [cbn; tauto|]. rewrite IH.
  replace (opened_from o (e :: a)) with (opened_from (opened_from o [e]) a) by (destruct e; reflexivity). tauto.
Qed.
Lemma exists_end act open c : holds act open ->
  existsb (ends_request c) open = match act (tag c) with Some q => matches (u_tlp q) c && final (u_tlp q) c | None => false end.
Proof.
  intros (N & H1 & H2). destruct (existsb _ _) eqn:E.
  - apply existsb_exists in E as (r & I & E). unfold ends_request in E.
    destruct (tag r =? tag c) eqn:Q; [|discriminate]. apply Z.eqb_eq in Q. destruct (H2 r I) as (_ & u & A & <-). rewrite <- Q, A. now rewrite <- E.
  - destruct (act (tag c)) as [q|] eqn:A; [|auto]. destruct (H1 _ _ A) as [I T].
    destruct (matches (u_tlp q) c && final (u_tlp q) c) eqn:M; [|auto].
    assert (X : existsb (ends_request c) open = true).
    { apply existsb_exists. exists (u_tlp q). split; [exact I|]. unfold ends_request. rewrite T, Z.eqb_refl. exact M. }
    congruence.
Qed.
Lemma received_judged o c s s' u b ok ty : fmt_type c = Ok ty -> type_in ty cpl_types = true -> tbl s -> received o c s s' u b ok ->
  judged (opened (w_log s)) c u.
Proof.
  intros T TI [_ H] []. unfold judged, address_of, code_of. rewrite (exists_end _ _ c H). rewrite (holds_find _ _ (tag c) H).
  destruct (w_active s (tag c)) as [q|]; cbn [option_map].
  - eapply judge_some in rx_judge0 as (-> & J1 & J2 & J3 & J4); eauto.
  - apply judge_none in rx_judge0 as (_ & J1 & J2 & J3 & J4). repeat split; auto.
Qed.
Definition jinv (s : udev) : Prop := tbl s /\ all_judged [] (w_log s).
Lemma jinv_step o s l s' : jinv s -> ueff o s l s' -> jinv s'.
Proof.
  intros [Q T] E. split; [eapply tbl_step; eauto|]. destruct E; cbn; rewrite ?all_judged_app; cbn [all_judged]; auto.
  - open_launch. rewrite la_log0. cbn. rewrite !all_judged_app. cbn. auto.
  - destruct (put_fields u (note (EAccept u) s)) as (_ & -> & _). cbn. rewrite all_judged_app. cbn. auto.
  - destruct (put_fields u s) as (_ & -> & _). exact T.
  - assert (X3 : w_log s0 = w_log s) by (destruct H as [[B [r [N ->]]]|[-> [B|[B _]]]]; reflexivity).
    destruct H0; cbn; rewrite ?X3, ?all_judged_app; cbn; auto.
    open_launch. rewrite la_log0, X3, all_judged_app. cbn; auto.
  - apply rx_spec in H1 as [->|(u & b & ok & RX)]; [exact T|].
    pose proof (received_judged _ _ _ _ _ _ _ _ H H0 Q RX) as J. destruct RX. rewrite rx_log0, all_judged_app. cbn [all_judged]. auto.
Qed.
Lemma jinv_run o c ls s : urun o ls (udev0 c) = Ok s -> jinv s.
Proof.
  apply urun_inv; [intros; eapply jinv_step; eauto|]. split; [|exact I]. split; [unfold qok; cbn; constructor|].
  split; [constructor|]. split; [intros t u H; discriminate|intros r []].
Qed.
Lemma us_judged o c ls s l1 d u ok l2 : urun o ls (udev0 c) = Ok s -> w_log s = l1 ++ ECpl d u ok :: l2 -> judged (opened l1) d u.
Proof. intros H E. apply jinv_run in H as [_ J]. rewrite E, all_judged_app in J. cbn in J. apply J. Qed.

(** ** The completions of a correct completer *)
Lemma good_codes open r cid rcb limit a n d cs : NoDup (map tag open) -> In r open -> memory_read r = true ->
  good_split rcb limit a n d cs -> a + n = last_byte r + 1 -> Forall (answers cid r) cs -> Forall (fun c => ep c = false) cs ->
  forall c1 c c2, cs = c1 ++ c :: c2 ->
    code_of open c = NORMAL_TERMINATION /\ address_of open c = byte_address r c mod 4096 /\
    byte_address r c = (match c1 with [] => a | _ => a - a mod 4 + zlen (concat (map data c1)) end) /\
    existsb (ends_request c) open = (match c2 with [] => true | _ => false end).
Proof.
  intros N I M G. revert r N I M. 
  assert (F : forall r c, NoDup (map tag open) -> In r open -> tag c = tag r -> find (fun x => tag x =? tag c) open = Some r).
  { intros r c N I E. destruct (find _ open) as [x|] eqn:F.
    - apply find_some in F as [F Q]. apply Z.eqb_eq in Q. f_equal. eapply nodup_in; eauto. now rewrite Q.
    - pose proof (find_none _ _ F _ I) as X. cbn in X. apply Z.eqb_neq in X. congruence. }
  assert (X : forall r c b, NoDup (map tag open) -> In r open -> answers cid r c -> ep c = false -> memory_read r = true ->
    lower_address c = byte_address r c mod 128 -> (byte_count c <=? 4 * tlen c - lower_address c mod 4) = b ->
    code_of open c = NORMAL_TERMINATION /\ address_of open c = byte_address r c mod 4096 /\ existsb (ends_request c) open = b).
  { intros r c b N I [an_type0 an_status0 an_cid0 an_rid0 an_tag0 an_tc0 an_attr0] EP M L B. unfold code_of, address_of. rewrite (F r c) by auto.
    assert (MA : matches r c = true).
    { unfold matches. rewrite an_rid0, an_attr0, an_tc0, !Z.eqb_refl. replace (id_eqb _ _) with true; [reflexivity|].
      unfold id_eqb. now rewrite !Z.eqb_refl. }
    assert (WD : without_data c = false) by (unfold without_data; rewrite an_type0; reflexivity).
    assert (LE : (lower_address c =? byte_address r c mod 128) = true) by (rewrite L; apply Z.eqb_refl).
    assert (SE : (status c =? SC) = true) by (rewrite an_status0; reflexivity).
    rewrite MA, M, WD, SE, LE, EP. cbn [negb andb]. split; [reflexivity|]. split; [reflexivity|].
    assert (FI : final r c = b) by (unfold final; rewrite M, WD, SE; exact B).
    destruct (existsb (ends_request c) open) eqn:E.
    - apply existsb_exists in E as (x & Ix & E). unfold ends_request in E. destruct (tag x =? tag c) eqn:Q; [|discriminate].
      apply Z.eqb_eq in Q. assert (x = r) by (eapply nodup_in; eauto; congruence). subst x. rewrite MA, FI in E. now destruct b.
    - destruct b; [|reflexivity]. assert (Y : existsb (ends_request c) open = true); [|congruence].
      apply existsb_exists. exists r. split; [exact I|]. unfold ends_request. rewrite an_tag0, Z.eqb_refl, MA, FI. reflexivity. }
  induction G as [a n d c Hn Hb Hl Hd Ht Hs Hr|a n d d' c cs Hb Hl Hd Ht Hs Hr Hv G IH]; intros r N I M E A P c1 x c2 Q.
  - destruct c1 as [|y c1]; [|destruct c1; discriminate]. injection Q as <- <-. apply Forall_inv in A, P.
    assert (BA : byte_address r c = a) by (unfold byte_address; lia).
    destruct (X r c true) as (X1 & X2 & X3); auto; [now rewrite BA|rewrite Hl, Hb, Z.leb_le; lia].
  - inversion A as [|y z A1 A2 ]; subst y z. inversion P as [|y z P1 P2]; subst y z.
    assert (BA : byte_address r c = a) by (unfold byte_address; lia).
    destruct c1 as [|y c1].
    + injection Q as <- <-. destruct (X r c false) as (X1 & X2 & X3); auto; [now rewrite BA|rewrite Hl, Hb; apply Z.leb_gt; lia|].
      split; [exact X1|]. split; [exact X2|]. split; [exact BA|]. rewrite X3. inversion G; reflexivity.
    + injection Q as <- Q. destruct (IH r N I M ltac:(lia) A2 P2 c1 x c2 Q) as (X1 & X2 & X3 & X4).
      split; [exact X1|]. split; [exact X2|]. split; [|exact X4]. rewrite X3. replace (map data (c :: c1)) with (d :: map data c1) by (cbn [map]; f_equal; exact (eq_sym Hd)). cbn [concat].
      unfold zlen in *. rewrite app_length. destruct c1 as [|y c1]; cbn [map concat length]; lia.
Qed.

(** ** The receive buffer *)
Lemma flat_snoc {A B} (f : A -> list B) l x : flat_map f (l ++ [x]) = flat_map f l ++ f x.
Proof. rewrite flat_map_app. cbn. now rewrite app_nil_r. Qed.
Lemma space_app a b : buffer_space (a ++ b) = buffer_space a + buffer_space b.
Proof. unfold buffer_space. induction a; cbn [fold_right app]; [reflexivity|]. rewrite IHa. lia. Qed.
Lemma credits_pos u : 0 <= us_credits u.
Proof.
  unfold us_credits, get_data_credits, get_payload_size_dw, zlen. apply Z.div_pos; [|lia].
  assert (0 <= Z.of_nat (length (data (u_tlp u))) / 4) by (apply Z.div_pos; lia). lia.
Qed.
Lemma space_one u : buffer_space [u] = us_credits u + 1.
Proof. unfold buffer_space. cbn [fold_right]. unfold us_credits, get_data_credits, get_payload_size_dw. lia. Qed.
Lemma space_pos l : 0 <= buffer_space l.
Proof. unfold buffer_space. induction l as [|u l IH]; cbn [fold_right]; [lia|]. pose proof (credits_pos u). unfold us_credits, get_data_credits, get_payload_size_dw in *. lia. Qed.
Record bufok (o : uopt) (s : udev) : Prop := {
  bf_hc : w_hc s = zlen (w_rcq s ++ sending_r (w_r s));
  bf_dc : w_dc s = buffer_space (w_rcq s ++ sending_r (w_r s));
  bf_hl : w_hc s <= co_cplh (o_core o); bf_dl : w_dc s <= co_cpld (o_core o);
  bf_order : stored (w_log s) = given (w_log s) ++ w_rcq s;
  bf_pos : 0 <= w_lerr s;
  bf_lost : co_plus (o_core o) = true -> Z.of_nat (lost (w_log s)) = Z.of_nat (shown_errors (w_log s)) + w_lerr s;
  bf_flag : co_plus (o_core o) = false -> w_lerr s <= 1 /\ (Z.of_nat (shown_errors (w_log s)) + w_lerr s <= Z.of_nat (lost (w_log s))) /\
     ((lost (w_log s) = O) \/ 0 < Z.of_nat (shown_errors (w_log s)) + w_lerr s) }.
Definition unseen (e : uevent) : Prop := match e with ECpl _ _ _ | EOut _ | EErr => False | _ => True end.
Lemma lost_snoc l e : lost (l ++ [e]) = (lost l + match e with ECpl _ _ false => 1 | _ => 0 end)%nat.
Proof. unfold lost. rewrite filter_app, app_length. f_equal. now destruct e as [| | |c u []| | | | ]. Qed.
Lemma shown_snoc l e : shown_errors (l ++ [e]) = (shown_errors l + match e with EErr => 1 | _ => 0 end)%nat.
Proof. unfold shown_errors. rewrite filter_app, app_length. f_equal. now destruct e. Qed.
(** Steps that leave the buffer alone. *)
Lemma bufok_same o s s' es : bufok o s -> Forall unseen es -> w_log s' = w_log s ++ es -> w_hc s' = w_hc s -> w_dc s' = w_dc s ->
  w_rcq s' = w_rcq s -> w_r s' = w_r s -> w_lerr s' = w_lerr s -> bufok o s'.
Proof.
  intros B F L E1 E2 E3 E4 E5.
  assert (X : stored (w_log s') = stored (w_log s) /\ given (w_log s') = given (w_log s) /\ lost (w_log s') = lost (w_log s) /\ shown_errors (w_log s') = shown_errors (w_log s)).
  { rewrite L. clear - F. induction es as [|e es IH] using rev_ind; [now rewrite app_nil_r|].
    apply Forall_app in F as [F G]. apply Forall_inv in G. rewrite app_assoc. destruct (IH F) as (I1 & I2 & I3 & I4).
    rewrite lost_snoc, shown_snoc. unfold stored, given in *. rewrite !flat_snoc, I1, I2, I3, I4.
    destruct e; cbn in G; try contradiction; rewrite !app_nil_r, ?Nat.add_0_r; auto. }
  destruct X as (X1 & X2 & X3 & X4). destruct B. constructor; rewrite ?E1, ?E2, ?E3, ?E4, ?E5, ?X1, ?X2, ?X3, ?X4; auto.
Qed.
Lemma bufok_step o s l s' : bufok o s -> ueff o s l s' -> bufok o s'.
Proof.
  intros B E. destruct E; auto.
  - apply (bufok_same _ _ _ [] B); cbn; auto. now rewrite app_nil_r.
  - apply (bufok_same _ _ _ [EAccept u; EDrop u] B); cbn; auto; [repeat constructor|]. now rewrite <- app_assoc.
  - destruct H1. apply (bufok_same _ _ _ [EAccept u; EIssue u' (tag_range o (note (EAccept u) s))] B); cbn in *; auto; [repeat constructor|].
    rewrite la_log0, <- app_assoc. reflexivity.
  - pose proof (put_fields u (note (EAccept u) s)) as (P1 & P2 & P3 & P4 & P5 & P6 & P7 & P8 & P9 & P10 & _).
    apply (bufok_same _ _ _ [EAccept u] B); auto. repeat constructor.
  - apply (bufok_same _ _ _ [EAccept u; EIssue u n] B); cbn; auto; [repeat constructor|]. now rewrite <- app_assoc.
  - pose proof (put_fields u s) as (P1 & P2 & P3 & P4 & P5 & P6 & P7 & P8 & P9 & P10 & _).
    apply (bufok_same _ _ _ [] B); auto. now rewrite app_nil_r.
  - apply (bufok_same _ _ _ [] B); cbn; auto. now rewrite app_nil_r.
  - assert (B0 : bufok o s0).
    { apply (bufok_same _ _ _ [] B); auto; rewrite ?app_nil_r; destruct H as [[_ [r [_ ->]]]|[-> _]]; reflexivity. }
    destruct H0.
    + apply (bufok_same _ _ _ [] B0); cbn; auto. now rewrite app_nil_r.
    + apply (bufok_same _ _ _ [] B0); cbn; auto. now rewrite app_nil_r.
    + apply (bufok_same _ _ _ [EDrop u] B0); cbn; auto. repeat constructor.
    + open_launch. apply (bufok_same _ _ _ [EIssue u' (tag_range o s0)] B0); cbn in *; auto. repeat constructor.
  - apply (bufok_same _ _ _ [] B); cbn; auto. now rewrite app_nil_r.
  - apply rx_spec in H1 as [->|(u & b & ok & RX)]; [exact B|]. destruct RX, B.
    assert (K : ok = true -> w_hc s + 1 <= co_cplh (o_core o) /\ w_dc s + us_credits u + 1 <= co_cpld (o_core o)) by (intros ->; lia).
    pose proof (space_one u) as S1.
    constructor; rewrite ?rx_hc0, ?rx_dc0, ?rx_rcq0, ?rx_r0, ?rx_lerr0, ?rx_log0, ?lost_snoc, ?shown_snoc.
    + destruct ok; [|auto]. rewrite bf_hc0. unfold zlen. rewrite !app_length. cbn. lia.
    + destruct ok; [|auto]. rewrite bf_dc0, !space_app. lia.
    + destruct ok; [|auto]. specialize (K eq_refl). lia.
    + destruct ok; [|auto]. specialize (K eq_refl). lia.
    + unfold stored, given in *. rewrite !flat_snoc. destruct ok; rewrite bf_order0, !app_nil_r, <- ?app_assoc; reflexivity.
    + destruct ok, (co_plus _); lia.
    + intros PL. specialize (bf_lost0 PL). rewrite PL. destruct ok; lia.
    + intros PL. specialize (bf_flag0 PL). rewrite PL. destruct ok; lia.
  - destruct B. rewrite H in *. rewrite H0 in *. cbn [sending_r] in *. rewrite app_nil_r in *.
    constructor; cbn [w_log note set_w_r set_w_buf set_w_lerr w_hc w_dc w_rcq w_r w_lerr sending_r]; auto; rewrite ?lost_snoc, ?shown_snoc, ?Nat.add_0_r; auto.
    + rewrite bf_hc0. unfold zlen. rewrite app_length. cbn. lia.
    + rewrite bf_dc0. change (u :: r) with ([u] ++ r). rewrite !space_app. lia.
    + unfold stored, given in *. rewrite !flat_snoc. rewrite bf_order0, app_nil_r, <- app_assoc. reflexivity.
  - destruct B. rewrite H in *. cbn [sending_r] in *.
    pose proof (space_one u) as S1. pose proof (space_pos (w_rcq s)) as S2. pose proof (credits_pos u) as S3.
    constructor; cbn [w_log note set_w_r set_w_buf set_w_lerr w_hc w_dc w_rcq w_r w_lerr sending_r]; auto; rewrite ?app_nil_r.
    + rewrite bf_hc0. unfold zlen. rewrite app_length. cbn. lia.
    + rewrite bf_dc0, space_app. lia.
    + rewrite bf_hc0 in *. unfold zlen in *. rewrite app_length in *. cbn in *. lia.
    + rewrite bf_dc0, space_app in *. lia.
  - apply (bufok_same _ _ _ [ETag t] B); cbn; auto. repeat constructor.
  - apply (bufok_same _ _ _ [ESeq n] B); cbn; auto. repeat constructor.
  - destruct B. constructor; cbn [w_log note set_w_r set_w_buf set_w_lerr w_hc w_dc w_rcq w_r w_lerr sending_r]; auto; rewrite ?lost_snoc, ?shown_snoc, ?Nat.add_0_r; auto.
    + unfold stored, given in *. rewrite !flat_snoc, !app_nil_r. auto.
    + destruct (co_plus _); lia.
    + intros PL. specialize (bf_lost0 PL). rewrite PL. lia.
    + intros PL. specialize (bf_flag0 PL). rewrite PL. lia.
Qed.
Lemma bufok_run o c ls s : usual_core o -> urun o ls (udev0 c) = Ok s -> bufok o s.
Proof. intros [U1 U2]. apply urun_inv; [intros; eapply bufok_step; eauto|]. constructor; cbn; auto; lia. Qed.

(** ** Forwarding of requests *)
Definition tsum (o : uopt) (s : udev) : Prop :=
  Permutation (map (untagged o) (accepted (w_log s))) (map (untagged o) (settled (w_log s) ++ w_np s ++ held_a (w_a s) ++ held_b (w_b s))).
Lemma untagged_launch o u s u' s' : launched o u s u' s' -> untagged o u' = untagged o u.
Proof. intros []. rewrite la_u0. unfold untagged. destruct (o_client o); [reflexivity|]. destruct u as [t]. destruct t. reflexivity. Qed.
Lemma tsum_step o s l s' : tsum o s -> ueff o s l s' -> tsum o s'.
Proof.
  unfold tsum. intros P E. unfold accepted, settled in *. destruct E; cbn [w_log w_np w_a w_b note set_w_cfg set_w_a set_w_b set_w_r set_w_seqs set_w_tags set_w_buf set_w_lerr]; rewrite ?flat_snoc; rewrite ?app_nil_r; auto.
  - rewrite <- app_assoc. rewrite !map_app in *. cbn [map app].
    rewrite Permutation_app_comm. cbn [app]. rewrite P. apply Permutation_middle.
  - pose proof (untagged_launch _ _ _ _ _ H1) as UT. open_launch. rewrite la_log0, la_np0, la_b0. cbn [note w_log w_np w_b] in *.
    rewrite !flat_snoc, !app_nil_r. rewrite H in P. cbn [held_a] in *. rewrite <- app_assoc. rewrite !map_app in *. cbn [map app]. rewrite UT.
    rewrite Permutation_app_comm. cbn [app]. rewrite P. apply Permutation_middle.
  - pose proof (put_fields u (note (EAccept u) s)) as (P1 & P2 & P3 & P4 & P5 & P6 & P7 & P8 & P9 & P10 & P11 & P12 & P13).
    rewrite P2, P5. cbn [note w_log w_b w_np] in *. rewrite !flat_snoc, app_nil_r. rewrite (app_assoc (w_np _)), P13.
    rewrite H in P. cbn [held_a] in *. rewrite <- app_assoc. rewrite !map_app in *. cbn [map app].
    rewrite Permutation_app_comm. cbn [app]. rewrite P. cbn [map app]. rewrite !app_assoc. apply Permutation_middle.
  - rewrite <- app_assoc. rewrite H in P. cbn [held_a] in *. rewrite !map_app in *. cbn [map app].
    rewrite Permutation_app_comm. cbn [app]. rewrite P. apply Permutation_middle.
  - pose proof (put_fields u s) as (P1 & P2 & P3 & P4 & P5 & P6 & P7 & P8 & P9 & P10 & P11 & P12 & P13).
    rewrite P2, P5. rewrite (app_assoc (w_np _)), P13. rewrite H in P. cbn [held_a] in *. now rewrite <- app_assoc.
  - rewrite H in P. exact P.
  - assert (X : w_log s0 = w_log s /\ w_a s0 = w_a s /\ Permutation (w_np s ++ held_a (w_a s) ++ held_b (w_b s)) (u :: w_np s0 ++ held_a (w_a s0))).
    { destruct H as [[B [r [N ->]]]|[-> [B|[B _]]]]; cbn [w_log w_a w_np set_w_deq set_w_np]; (split; [reflexivity|]; split; [reflexivity|]); rewrite B; cbn [held_b].
      - rewrite N, app_nil_r. reflexivity.
      - rewrite app_assoc. rewrite Permutation_app_comm. reflexivity.
      - rewrite app_assoc. rewrite Permutation_app_comm. reflexivity. }
    destruct X as (X1 & X2 & X3). rewrite <- X1 in P. rewrite map_app, X3 in P. cbn [map] in P. clear H X1 X2 X3.
    destruct H0; cbn [w_log w_np w_a w_b note set_w_b set_w_rel set_w_tag held_b]; rewrite ?flat_snoc, ?app_nil_r; auto.
    + rewrite map_app. rewrite P. apply Permutation_app_head. rewrite app_assoc, map_app. cbn [map]. symmetry. rewrite Permutation_app_comm. cbn [app map]. rewrite ?map_app. reflexivity.
    + rewrite map_app. rewrite P. apply Permutation_app_head. rewrite app_assoc, map_app. cbn [map]. symmetry. rewrite Permutation_app_comm. cbn [app map]. rewrite ?map_app. reflexivity.
    + rewrite P. rewrite !map_app. cbn [map app]. rewrite <- app_assoc. reflexivity.
    + pose proof (untagged_launch _ _ _ _ _ H0) as UT. open_launch. rewrite la_log0, la_np0, la_a0, !flat_snoc, app_nil_r, P.
      rewrite !map_app. cbn [map app]. rewrite UT, <- app_assoc. reflexivity.
  - rewrite H in P. cbn [held_b] in P. rewrite !app_nil_r in P. exact P.
  - apply rx_spec in H1 as [->|(u & b & ok & [])]; [exact P|]. rewrite rx_log0, rx_np0, rx_a0, rx_b0, !flat_snoc, !app_nil_r. exact P.
Qed.
Lemma tsum_run o c ls s : urun o ls (udev0 c) = Ok s -> tsum o s.
Proof. apply urun_inv; [intros; eapply tsum_step; eauto|]. unfold tsum. cbn. constructor. Qed.

(** Sequence numbers *)
Definition sinv (s : udev) : Prop :=
  Permutation (map seq_num (issued (w_log s))) (shown_seqs (w_log s) ++ w_seqs s ++ map seq_num (sending_a (w_a s) ++ sending_b (w_b s))).
Lemma perm_tail {A} (x : A) l a b : Permutation l (a ++ b) -> Permutation (l ++ [x]) (a ++ b ++ [x]).
Proof. intros P. rewrite app_assoc. now apply Permutation_app_tail. Qed.
Lemma seq_launch o u s u' s' : launched o u s u' s' -> seq_num u' = seq_num u.
Proof. intros []. rewrite la_u0. now destruct (o_client o). Qed.
Lemma sinv_step o s l s' : sinv s -> ueff o s l s' -> sinv s'.
Proof.
  unfold sinv. intros P E. unfold issued, shown_seqs in *. destruct E; cbn [w_log w_np w_a w_b w_seqs note set_w_cfg set_w_a set_w_b set_w_r set_w_seqs set_w_tags set_w_buf set_w_lerr]; rewrite ?flat_snoc; rewrite ?app_nil_r; auto.
  - open_launch. rewrite la_log0, la_b0, la_seqs0. cbn [note w_log w_b w_seqs] in *. rewrite !flat_snoc, !app_nil_r. rewrite H in P. cbn [sending_a app map] in *.
    rewrite map_app. cbn [map]. rewrite Permutation_app_comm. cbn [app]. rewrite P. rewrite !app_assoc. apply Permutation_middle.
  - pose proof (put_fields u (note (EAccept u) s)) as (P1 & P2 & P3 & P4 & P5 & P6 & P7 & P8 & P9 & P10 & P11 & P12 & P13).
    rewrite P2, P4, P5, P12. cbn [note w_log w_b w_seqs] in *. rewrite !flat_snoc, !app_nil_r. rewrite H in P. exact P.
  - rewrite H in P. cbn [sending_a app map] in *.
    rewrite map_app. cbn [map]. rewrite Permutation_app_comm. cbn [app]. rewrite P. rewrite !app_assoc. apply Permutation_middle.
  - pose proof (put_fields u s) as (P1 & P2 & P3 & P4 & P5 & P6 & P7 & P8 & P9 & P10 & P11 & P12 & P13).
    rewrite P2, P4, P5, P12. rewrite H in P. exact P.
  - rewrite H in P. cbn [sending_a app map] in *. rewrite <- (app_assoc (w_seqs s)). exact P.
  - assert (X : w_log s0 = w_log s /\ w_a s0 = w_a s /\ w_seqs s0 = w_seqs s /\ sending_b (w_b s) = []).
    { destruct H as [[B [r [N ->]]]|[-> [B|[B _]]]]; rewrite B; auto. }
    destruct X as (X1 & X2 & X3 & X4). rewrite X4, app_nil_r, <- X1, <- X2, <- X3 in P. clear H X1 X2 X3 X4.
    destruct H0; cbn [w_log w_np w_a w_b w_seqs note set_w_b set_w_rel set_w_tag sending_b]; rewrite ?flat_snoc, ?app_nil_r; auto.
    open_launch. rewrite la_log0, la_a0, la_seqs0, !flat_snoc, app_nil_r. rewrite !map_app. cbn [map].
    rewrite (app_assoc (w_seqs s0)). apply perm_tail. exact P.
  - rewrite H in P. cbn [sending_b app map] in *. rewrite P. apply Permutation_app_head. rewrite map_app. cbn [map]. rewrite <- app_assoc. apply Permutation_app_head. cbn [app]. rewrite Permutation_app_comm. reflexivity.
  - apply rx_spec in H1 as [->|(u & b & ok & [])]; [exact P|]. rewrite rx_log0, rx_seqs0, rx_a0, rx_b0, !flat_snoc, !app_nil_r. exact P.
  - rewrite P, H. rewrite <- app_assoc. reflexivity.
Qed.
Lemma sinv_run o c ls s : urun o ls (udev0 c) = Ok s -> sinv s.
Proof. apply urun_inv; [intros; eapply sinv_step; eauto|]. unfold sinv. cbn. constructor. Qed.

(** Tags chosen by the core *)
Definition ginv (o : uopt) (s : udev) : Prop := o_client o = false ->
  map tag (filter needs_answer (map u_tlp (issued (w_log s)))) = shown_tags (w_log s) ++ w_tags s /\
  Forall (fun e => match e with EIssue u n => needs_answer (u_tlp u) = true -> 0 <= tag (u_tlp u) < n | _ => True end) (w_log s).
Lemma ginv_step o s l s' : qok s /\ ginv o s -> ueff o s l s' -> qok s' /\ ginv o s'.
Proof.
  intros [Q G] E. split; [eapply qok_step; eauto|]. intros CL. specialize (G CL). destruct G as [P R].
  unfold qok in Q. unfold issued, shown_tags in *. destruct E; cbn [w_log w_np w_a w_b w_tags note set_w_cfg set_w_a set_w_b set_w_r set_w_seqs set_w_tags set_w_buf set_w_lerr]; rewrite ?flat_snoc, ?Forall_app; rewrite ?app_nil_r; auto.
  - open_launch. rewrite la_log0, la_tags0, CL. specialize (la_int0 CL). cbn [note w_log w_tags] in *. rewrite !flat_snoc, !Forall_app, !app_nil_r.
    split; [|repeat split; auto; repeat constructor; lia]. rewrite map_app, filter_app, map_app, P. cbn [map filter].
    assert (NA : needs_answer (u_tlp u') = true) by (rewrite la_u0, CL; exact H0). rewrite NA, <- app_assoc. reflexivity.
  - pose proof (put_fields u (note (EAccept u) s)) as (P1 & P2 & P3 & P4 & P5 & P6 & P7 & P8 & P9 & P10 & P11 & P12 & P13).
    rewrite P2, P3. cbn [note w_log w_tags] in *. rewrite !flat_snoc, !Forall_app, !app_nil_r. auto.
  - split; [|repeat split; auto; repeat constructor; congruence]. rewrite map_app, filter_app, map_app, P. cbn [map filter]. rewrite H0. cbn. now rewrite app_nil_r.
  - pose proof (put_fields u s) as (P1 & P2 & P3 & P4 & P5 & P6 & P7 & P8 & P9 & P10 & P11 & P12 & P13).
    rewrite P2, P3. auto.
  - rewrite !Forall_app in Q. destruct Q as (F1 & F2 & F3).
    assert (X : w_log s0 = w_log s /\ w_tags s0 = w_tags s /\ needs_answer (u_tlp u) = true).
    { destruct H as [[B [r [N ->]]]|[-> [B|[B _]]]]; cbn; try (rewrite B in F3; cbn in F3; apply Forall_inv in F3; auto).
      rewrite N in F1. inversion F1; auto. }
    destruct X as (X1 & X2 & X3). rewrite <- X1, <- X2 in P. rewrite <- X1 in R. clear H X1 X2.
    destruct H0; cbn [w_log w_np w_a w_b w_tags note set_w_b set_w_rel set_w_tag sending_b]; rewrite ?flat_snoc, ?Forall_app, ?app_nil_r; auto.
    open_launch. rewrite la_log0, la_tags0, CL. specialize (la_int0 CL). rewrite !flat_snoc, !Forall_app, !app_nil_r.
    split; [|repeat split; auto; repeat constructor; lia]. rewrite map_app, filter_app, map_app, P. cbn [map filter].
    assert (NA : needs_answer (u_tlp u') = true) by (rewrite la_u0, CL; exact X3). rewrite NA, <- app_assoc. reflexivity.
  - apply rx_spec in H1 as [->|(u & b & ok & [])]; [auto|]. rewrite rx_log0, rx_tags0, !flat_snoc, !Forall_app, !app_nil_r. auto.
  - split; [|repeat split; auto]. rewrite P, H. rewrite <- app_assoc. reflexivity.
Qed.
Lemma ginv_run o c ls s : urun o ls (udev0 c) = Ok s -> ginv o s.
Proof. intros H. apply (urun_inv o (fun s => qok s /\ ginv o s)) in H; [apply H|intros; eapply ginv_step; eauto|]. split; [unfold qok; constructor|]. intros _. cbn. auto. Qed.

(** Posted requests keep their order. *)
Definition pinv (s : udev) : Prop := posted (settled (w_log s)) = posted (accepted (w_log s)).
Lemma posted_snoc l u : posted (l ++ [u]) = posted l ++ posted [u].
Proof. apply filter_app. Qed.
Lemma posted_np u : needs_answer (u_tlp u) = true -> posted [u] = [].
Proof. intros H. cbn. now rewrite H. Qed.
Lemma pinv_step o s l s' : qok s /\ pinv s -> ueff o s l s' -> qok s' /\ pinv s'.
Proof.
  intros [Q P] E. split; [eapply qok_step; eauto|]. unfold pinv in *.
  unfold qok in Q. unfold settled, accepted in *. destruct E; cbn [w_log note set_w_cfg set_w_a set_w_b set_w_r set_w_seqs set_w_tags set_w_buf set_w_lerr]; rewrite ?flat_snoc; rewrite ?app_nil_r; auto.
  - now rewrite !posted_snoc, P.
  - open_launch. rewrite la_log0. cbn [note w_log] in *. rewrite !flat_snoc, !app_nil_r, !posted_snoc.
    assert (NA : needs_answer (u_tlp u') = true) by (rewrite la_u0; destruct (o_client o); exact H0). now rewrite !posted_np, !app_nil_r by assumption.
  - pose proof (put_fields u (note (EAccept u) s)) as (_ & P2 & _). rewrite P2. cbn [note w_log]. rewrite !flat_snoc, !app_nil_r, posted_snoc, posted_np, app_nil_r by assumption. auto.
  - now rewrite !posted_snoc, P.
  - pose proof (put_fields u s) as (_ & P2 & _). rewrite P2. auto.
  - rewrite !Forall_app in Q. destruct Q as (F1 & F2 & F3).
    assert (X : w_log s0 = w_log s /\ needs_answer (u_tlp u) = true).
    { destruct H as [[B [r [N ->]]]|[-> [B|[B _]]]]; cbn; try (rewrite B in F3; cbn in F3; apply Forall_inv in F3; auto).
      rewrite N in F1. inversion F1; auto. }
    destruct X as (X1 & X3). rewrite <- X1 in P. clear H X1.
    destruct H0; cbn [w_log note set_w_b set_w_rel set_w_tag]; rewrite ?flat_snoc, ?app_nil_r; auto.
    + now rewrite posted_snoc, posted_np, app_nil_r by assumption.
    + open_launch. rewrite la_log0, !flat_snoc, app_nil_r.
      assert (NA : needs_answer (u_tlp u') = true) by (rewrite la_u0; destruct (o_client o); exact X3). now rewrite posted_snoc, posted_np, app_nil_r by assumption.
  - apply rx_spec in H1 as [->|(u & b & ok & [])]; [auto|]. rewrite rx_log0, !flat_snoc, !app_nil_r. auto.
Qed.
Lemma pinv_run o c ls s : urun o ls (udev0 c) = Ok s -> pinv s.
Proof. intros H. apply (urun_inv o (fun s => qok s /\ pinv s)) in H; [apply H|intros; eapply pinv_step; eauto|]. split; [unfold qok; constructor|reflexivity]. Qed.

(** A request that waits for a tag waits for ever. *)
Lemma notag_run o ls s s' : w_tag s = false -> urun o ls s = Ok s' -> w_tag s' = false.
Proof.
  revert ls s s'. apply (urun_inv o (fun s => w_tag s = false)). intros s l s' T E. destruct E; auto.
  - open_launch. cbn in *. congruence.
  - now destruct (put_fields u (note (EAccept u) s)) as (_ & _ & _ & _ & _ & _ & _ & _ & _ & _ & -> & _).
  - now destruct (put_fields u s) as (_ & _ & _ & _ & _ & _ & _ & _ & _ & _ & -> & _).
  - assert (T0 : w_tag s0 = false) by (destruct H as [[B [r [N ->]]]|[-> _]]; exact T). destruct H0; cbn; auto. open_launch. congruence.
  - apply rx_spec in H1 as [->|(u & b & ok & [])]; congruence.
Qed.
Lemma stuck_run o u ls s s' : w_tag s = false -> w_b s = BTag u -> urun o ls s = Ok s' -> w_b s' = BTag u.
Proof.
  intros T B H. assert (X : w_tag s' = false /\ w_b s' = BTag u); [|apply X]. revert H. apply (urun_inv o (fun s => w_tag s = false /\ w_b s = BTag u)); [|auto].
  clear. intros s l s' [T B] E. destruct E; auto.
  - open_launch. cbn in *. split; congruence.
  - destruct (put_fields u0 (note (EAccept u0) s)) as (_ & _ & _ & _ & -> & _ & _ & _ & _ & _ & -> & _). auto.
  - destruct (put_fields u0 s) as (_ & _ & _ & _ & -> & _ & _ & _ & _ & _ & -> & _). auto.
  - exfalso. destruct H as [[B' _]|[_ [B'|[_ T']]]]; congruence.
  - exfalso. congruence.
  - apply rx_spec in H1 as [->|(u0 & b & ok & [])]; auto. split; congruence.
Qed.

(** Without tags to wait for and without data to make room for, everything is sent in order. *)
Definition oinv (s : udev) : Prop := Forall dataless (accepted (w_log s)) ->
  settled (w_log s) = accepted (w_log s) /\ w_np s = [] /\ held_a (w_a s) = [] /\ w_b s = BIdle /\ w_credit s = 0.
Lemma credits_nil u : data (u_tlp u) = [] -> us_credits u = 0.
Proof. unfold us_credits, get_data_credits, get_payload_size_dw. intros ->. reflexivity. Qed.
Lemma oinv_step o s l s' : o_client o = true -> 0 <= co_cpld (o_core o) -> oinv s -> ueff o s l s' -> oinv s'.
Proof.
  intros CL CO I E. unfold oinv in *. unfold settled, accepted in *.
  destruct E; cbn [w_log w_np w_a w_b w_credit note set_w_cfg set_w_a set_w_b set_w_r set_w_seqs set_w_tags set_w_buf set_w_lerr held_a]; rewrite ?flat_snoc, ?app_nil_r; auto.
  - intros F. apply Forall_app in F as [F _]. destruct (I F) as (I1 & I2 & I3 & I4 & I5). rewrite I1. auto.
  - open_launch. rewrite la_log0, la_np0, la_b0, la_credit0. cbn [note w_log w_np w_b w_credit] in *. rewrite !flat_snoc, !app_nil_r.
    intros F. apply Forall_app in F as [F D]. apply Forall_inv in D. destruct (I F) as (I1 & I2 & I3 & I4 & I5). rewrite I1, I5. rewrite CL in la_u0. subst u'.
    rewrite credits_nil by (apply D; assumption). auto.
  - pose proof (put_fields u (note (EAccept u) s)) as (_ & P2 & _). rewrite P2. cbn [note w_log]. rewrite !flat_snoc, !app_nil_r.
    intros F. exfalso. apply Forall_app in F as [F D]. apply Forall_inv in D. destruct (I F) as (I1 & I2 & I3 & I4 & I5).
    rewrite I2, I5, CL, credits_nil in H1 by (apply D; assumption). cbn in H1. lia.
  - intros F. apply Forall_app in F as [F _]. destruct (I F) as (I1 & I2 & I3 & I4 & I5). rewrite I1. auto.
  - pose proof (put_fields u s) as (_ & P2 & _). rewrite P2. intros F. exfalso. destruct (I F) as (I1 & I2 & I3 & I4 & I5). rewrite H in I3. discriminate.
  - intros F. destruct (I F) as (I1 & I2 & I3 & I4 & I5). rewrite H in I3. auto.
  - assert (X : w_log s' = w_log s \/ exists e, w_log s' = w_log s ++ [e] /\ match e with EAccept _ => False | _ => True end).
    { assert (X1 : w_log s0 = w_log s) by (destruct H as [[B [r [N ->]]]|[-> [B|[B _]]]]; reflexivity). rewrite <- X1.
      destruct H0; cbn [w_log note set_w_b set_w_rel set_w_tag]; auto; [right; exists (EDrop u); auto|]. open_launch. right. exists (EIssue u' (tag_range o s0)). auto. }
    intros F. exfalso. assert (F' : Forall dataless (flat_map (fun e => match e with EAccept u => [u] | _ => [] end) (w_log s))).
    { destruct X as [->|(e & -> & N)] in F; [exact F|]. rewrite flat_snoc in F. destruct e; try contradiction; now rewrite app_nil_r in F. }
    destruct (I F') as (_ & I2 & _ & I4 & _). destruct H as [[_ (r & N & _)]|[_ [B|[B _]]]]; congruence.
  - intros F. destruct (I F) as (_ & _ & _ & I4 & _). congruence.
  - apply rx_spec in H1 as [->|(u & b & ok & [])]; [auto|]. rewrite rx_log0, rx_np0, rx_a0, rx_b0, rx_credit0, !flat_snoc, !app_nil_r.
    intros F. destruct (I F) as (I1 & I2 & I3 & I4 & I5). rewrite I5. pose proof (credits_pos u). repeat split; auto. lia.
Qed.
Lemma oinv_run o c ls s : o_client o = true -> 0 <= co_cpld (o_core o) -> urun o ls (udev0 c) = Ok s -> oinv s.
Proof. intros CL CO. apply urun_inv; [intros; eapply oinv_step; eauto|]. intros _. cbn. auto. Qed.

(** What is accepted *)
Lemma accept_step o f s s' u : ustep o (LFrame f) s = Ok s' -> w_a s = AIdle -> unpack_us_rq (o_parity o) f = Ok u ->
  if discontinue u then s' = s else
  accepted (w_log s') = accepted (w_log s) ++
    [if rid_enable u then u else on_tlp (fun t => set_requester_id (mkId (g_bus (w_cfg s)) (device (requester_id t)) (func (requester_id t))) t) u].
Proof.
  intros H A UN. cbn [ustep] in H. rewrite A in H. unfold rq_frame in H. rewrite UN in H. cbn [bind] in H.
  destruct (discontinue u); [now apply Ok_inj in H|]. cbv zeta in H. set (v := if rid_enable u then u else _) in *. clearbody v.
  assert (Z1 : forall l e, match e with EAccept _ => False | _ => True end -> accepted (l ++ [e]) = accepted l).
  { intros l e N. unfold accepted. rewrite flat_snoc. destruct e; try contradiction; apply app_nil_r. }
  assert (Z2 : accepted (w_log s ++ [EAccept v]) = accepted (w_log s) ++ [v]) by (unfold accepted; now rewrite flat_snoc).
  destruct (is_nonposted (u_tlp v)) as [[|]|]; cbn [bind] in H; [| |discriminate].
  - destruct (_ && _ && _).
    + destruct (bus_master v _) as [[|]|]; cbn [bind negb] in H; try discriminate.
      * destruct (_ <? _); cbn [py_assert bind] in H; [|discriminate].
        destruct (launch o v _) as [[u' s1]|] eqn:L; cbn [bind] in H; [|discriminate]. apply Ok_inj in H. subst s'. cbn [w_log set_w_a].
        apply launch_spec in L. destruct L. rewrite la_log0. rewrite Z1 by exact Logic.I. exact Z2.
      * apply Ok_inj in H. subst s'. cbn [w_log note]. rewrite Z1 by exact Logic.I. exact Z2.
    + apply Ok_inj in H. subst s'. destruct (put_fields v (note (EAccept v) s)) as (_ & -> & _). exact Z2.
  - destruct (bus_master v _) as [[|]|]; cbn [bind negb] in H; try discriminate.
    + destruct (tlp_check _) as [[|]|]; cbn [py_assert bind] in H; try discriminate.
      apply Ok_inj in H. subst s'. cbn [w_log note set_w_a]. rewrite Z1 by exact Logic.I. exact Z2.
    + apply Ok_inj in H. subst s'. cbn [w_log note]. rewrite Z1 by exact Logic.I. exact Z2.
Qed.

(** A request that waits for credits waits until a completion with data arrives. *)
Lemma credit_stuck o u ls s s' : 0 <= co_cpld (o_core o) -> w_b s = BCredit u -> w_credit s + us_credits u > co_cpld (o_core o) -> Forall no_data ls ->
  urun o ls s = Ok s' -> w_b s' = BCredit u.
Proof.
  intros CO. revert s. induction ls as [|l ls IH]; cbn; intros s B C F H; [apply Ok_inj in H; now subst|].
  destruct (ustep o l s) as [s1|] eqn:E; cbn in H; [|discriminate]. inversion F as [|x y ND F']; subst.
  assert (X : w_b s1 = BCredit u /\ w_credit s1 + us_credits u > co_cpld (o_core o)); [|destruct X; eapply IH; eauto].
  apply ustep_eff in E. clear IH H F F'. destruct E; auto.
  - open_launch. cbn in *. rewrite la_b0, la_credit0. pose proof (credits_pos u'). split; [auto|lia].
  - unfold np_put. destruct (np_limit <=? _); cbn; auto.
  - unfold np_put. destruct (np_limit <=? _); cbn; auto.
  - destruct H as [[B' _]|[-> [B'|[B' _]]]]; try congruence. rewrite B in B'. injection B' as <-.
    destruct H0; cbn; auto; lia.
  - congruence.
  - apply rx_spec in H1 as [->|(v & b & ok & [])]; [auto|]. rewrite rx_b0, rx_credit0. split; [auto|].
    assert (V : us_credits v = 0).
    { destruct (w_active s (tag c)); [eapply judge_some in rx_judge0 as (_ & J & _); eauto|apply judge_none in rx_judge0 as (_ & J & _)];
        apply credits_nil; rewrite J; exact ND. }
    lia.
Qed.

(** What becomes of a completion *)
Lemma opened_needs l : Forall (fun r => needs_answer r = true) (opened l).
Proof.
  unfold opened. assert (X : forall l o, Forall (fun r => needs_answer r = true) o -> Forall (fun r => needs_answer r = true) (opened_from o l)); [|apply X; constructor].
  clear. induction l as [|e l IH]; cbn; intros o F; [exact F|]. destruct e; try (apply IH; exact F).
  - apply IH. destruct (needs_answer (u_tlp u)) eqn:N; [|exact F]. apply Forall_app. split; [exact F|]. constructor; auto.
  - apply IH. apply Forall_forall. intros x I. apply filter_In in I as [I _]. rewrite Forall_forall in F. auto.
Qed.
Lemma judge_total q c ty : fmt_type c = Ok ty -> (exists ty', fmt_type (u_tlp q) = Ok ty') -> exists u b, judge (Some q) c = Ok (u, b).
Proof.
  intros T [ty' T']. unfold judge. cbv zeta. destruct (_ || _); [eauto|]. destruct (negb _); [eauto|]. rewrite T'. cbn [bind].
  destruct (type_in ty' _); [|eauto]. rewrite T. cbn [bind]. destruct (type_in ty _); eauto.
Qed.
Lemma cpl_arrives o c ls s t ty : usual_core o -> urun o ls (udev0 c) = Ok s -> fmt_type t = Ok ty -> type_in ty cpl_types = true -> 0 <= tag t < 256 ->
  if existsb (id_eqb (requester_id t)) (g_ids (w_cfg s)) then
    exists s' u, ustep o (LCpl t) s = Ok s' /\ judged (opened (w_log s)) t u /\
      let kept := w_rcq s ++ sending_r (w_r s) in
      w_log s' = w_log s ++ [ECpl t u ((zlen kept <? co_cplh (o_core o)) && (buffer_space (kept ++ [u]) <=? co_cpld (o_core o)))]
  else ustep o (LCpl t) s = Ok s.
Proof.
  intros U R T TI B. pose proof (tbl_run _ _ _ _ R) as (_ & _ & HA & _). pose proof (bufok_run _ _ _ _ U R) as [].
  cbn [ustep]. rewrite T. cbn [bind]. rewrite TI. destruct (existsb _ _) eqn:E; [|unfold rx_cpl; now rewrite E].
  assert (X : exists s', rx_cpl o t s = Ok s' /\ s' <> s).
  { unfold rx_cpl. rewrite E. unfold get_active. replace (_ && _) with true by lia. cbn [bind].
    assert (J : exists u b, judge (w_active s (tag t)) t = Ok (u, b)).
    { destruct (w_active s (tag t)) as [q|] eqn:A; [|cbn; destruct (ep t); eauto]. eapply judge_total; [eauto|]. destruct (HA _ _ A) as [I _].
      pose proof (opened_needs (w_log s)) as F. rewrite Forall_forall in F. specialize (F _ I). unfold needs_answer in F. destruct (fmt_type (u_tlp q)); [eauto|discriminate]. }
    destruct J as (u & b & ->). cbn [bind]. eexists. split; [reflexivity|]. cbv zeta. intros EQ. apply (f_equal (fun s => length (w_log s))) in EQ. revert EQ.
    destruct b, (_ && _); cbn; rewrite app_length; cbn; lia. }
  destruct X as (s' & X & NE). pose proof X as Y. apply rx_spec in Y as [->|(u & b & ok & [])]; [contradiction|].
  exists s', u. split; [exact X|].
  assert (X' : ustep o (LCpl t) s = Ok s') by (cbn [ustep]; rewrite T; cbn [bind]; rewrite TI; exact X).
  split.
  - eapply us_judged with (ls := ls ++ [LCpl t]); [rewrite urun_app, R; cbn [bind urun]; rewrite X'; reflexivity|exact rx_log0].
  - cbv zeta. rewrite rx_log0. f_equal. f_equal. f_equal. rewrite rx_ok0. rewrite bf_hc0, bf_dc0. rewrite (space_app (w_rcq s ++ sending_r (w_r s)) [u]), space_one. f_equal; [|f_equal; lia]. lia.
Qed.
