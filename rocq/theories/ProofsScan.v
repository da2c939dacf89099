(** Configuration requests follow the bus numbers in any tree, and the completions come back. *)
From Verif Require Import Base BaseProofs SpecTlp ModelUtils ModelTlp ModelAttrs ModelCapList ModelConfig ModelFunction ModelRegion ModelHost ModelRoute ModelEnum ModelTree SpecRoute SpecConfig SpecHost SpecTree
  ModelTreeUp ModelTreeCfg SpecTreeCfg ModelScan SpecScan ProofsUtils ProofsHost ProofsEnum ProofsTreeUpAll ProofsTreeCfgAll.

Lemma id_no i j : i <> j -> id_eqb i j = false.
Proof. intros N. destruct (id_eqb i j) eqn:E; [|reflexivity]. apply id_eqb_ok in E. contradiction. Qed.
(** ** The way up *)
Lemma passes_on root c f ty : tlp_check c = Ok true -> fmt_type c = Ok ty -> In ty [CPL; CPL_DATA] -> requester_id c = id0 -> root = true \/ f_id f <> id0 -> through root c f = Ok (Passes c).
Proof.
  intros C T Ty R W. unfold through, br_downstream_recv. rewrite C. cbn [bind py_assert]. set (f1 := if _ && _ then _ else f). assert (E1 : f_id f1 = f_id f) by (subst f1; destruct (_ && _); reflexivity). clearbody f1.
  rewrite T. cbn [bind]. replace (type_in ty cfg_types) with false by (destruct Ty as [<-|[<-|[]]]; reflexivity).
  assert (M : (if root then Ok false else match_tlp 2 f1 c) = Ok false).
  { destruct root; [reflexivity|]. destruct W as [W|W]; [discriminate W|]. unfold match_tlp. rewrite T. cbn [bind]. rewrite E1, R, (id_no _ _ W). destruct Ty as [<-|[<-|[]]]; reflexivity. }
  rewrite M. cbn [bind]. assert (Se : match_secondary f1 c = Ok false).
  { unfold match_secondary. rewrite T, R. cbn [bind]. change (id_eqb id0 id0) with true. cbn [negb]. rewrite andb_false_r. destruct Ty as [<-|[<-|[]]]; reflexivity. }
  rewrite Se. cbn [bind negb orb]. unfold send_to, br_sends, fn_upstream_send. rewrite C. reflexivity.
Qed.
Lemma passes_switch root f k l c ty : tlp_check c = Ok true -> fmt_type c = Ok ty -> In ty [CPL; CPL_DATA] -> requester_id c = id0 -> root = true \/ f_id f <> id0 -> switched root f k l c = Ok (Passes c).
Proof.
  intros C T Ty R W. unfold switched. assert (M : exists m, match_tlp 2 f c = Ok m) by (unfold match_tlp; rewrite T; cbn [bind]; destruct Ty as [<-|[<-|[]]]; eauto). destruct M as [m M]. rewrite M. cbn [bind].
  assert (Se : match_secondary f c = Ok false).
  { unfold match_secondary. rewrite T, R. cbn [bind]. change (id_eqb id0 id0) with true. cbn [negb]. rewrite andb_false_r. destruct Ty as [<-|[<-|[]]]; reflexivity. }
  rewrite Se. replace (if m then Ok false else Ok false) with (@Ok bool false) by (destruct m; reflexivity). cbn [bind negb]. exact (passes_on root c f ty C T Ty R W).
Qed.

(** ** The way down *)
Section Request.
Context (b d f : Z) (t : tlp).
Hypothesis One : cfg_one t.
Hypothesis Co : completer_id t = mkId b d f.
Hypothesis Nh : mkId b d f <> id0.
Notation t0 := (set_type_ 4 t).
Lemma type1 : exists ty, fmt_type t = Ok ty /\ (ty = CFG_READ_1 /\ fmt_type t0 = Ok CFG_READ_0 /\ set_fmt_type CFG_READ_0 t = t0 \/ ty = CFG_WRITE_1 /\ fmt_type t0 = Ok CFG_WRITE_0 /\ set_fmt_type CFG_WRITE_0 t = t0).
Proof.
  destruct One as (_ & Y & F & _). destruct F as [[F T]|[F T]]; rewrite T; (eexists; split; [reflexivity|]); [left|right]; (split; [reflexivity|]);
    (split; [unfold fmt_type; cbn [fmt type_ set_type_]; rewrite F; reflexivity|]); unfold set_fmt_type, set_type_, set_fmt; cbn; rewrite F; reflexivity.
Qed.
Lemma claims_sits z : net_claims t0 z = Ok (sits d f z).
Proof.
  destruct z as [g br l]. unfold net_claims, sits. cbn [net_fn]. destruct type1 as (ty & _ & [(_ & T & _)|(_ & T & _)]); unfold match_tlp, match_secondary; rewrite T; cbn [bind];
    change (completer_id t0) with (completer_id t); rewrite Co; cbn [device func]; destruct (_ && _); [reflexivity|destruct br; reflexivity|reflexivity|destruct br; reflexivity].
Qed.
Lemma claims_covers z : net_claims t z = Ok (covers b z).
Proof.
  destruct z as [g br l]. unfold net_claims, covers. cbn [net_fn net_br]. destruct type1 as (ty & T & [(-> & _)|(-> & _)]); unfold match_tlp, match_secondary; rewrite T; cbn [bind];
    (destruct br; [|reflexivity]); rewrite Co, (id_no _ _ Nh); cbn [bus negb andb]; rewrite andb_true_r; reflexivity.
Qed.
Lemma ask_here sw root g br l : sits d f (Net g br l) = true -> ask sw root (Net g br l) t0 = ('(g', c) <- cfg_answer br t0 g ;; Ok (Net g' br l, [c])).
Proof.
  intros Si. pose proof (claims_sits (Net g br l)) as Cl. rewrite Si in Cl. unfold net_claims in Cl.
  assert (M : forall n (g1 : fnc), f_id g1 = f_id g -> match_tlp n g1 t0 = Ok true).
  { intros n g1 E. unfold sits in Si. cbn [net_fn] in Si. destruct type1 as (ty & _ & [(_ & T & _)|(_ & T & _)]); unfold match_tlp; rewrite T; cbn [bind]; change (completer_id t0) with (completer_id t); rewrite Co, E; cbn [device func]; rewrite Si; reflexivity. }
  destruct br; cbn [ask]; [|rewrite (M 6 g eq_refl); reflexivity]. unfold br_upstream_recv.
  assert (Ck : tlp_check t0 = Ok true).
  { destruct One as (C & Y & F & _). unfold tlp_check in *. change (tlen t0) with (tlen t). change (data t0) with (data t). change (fmt t0) with (fmt t). destruct type1 as (ty & T & [(-> & T0 & _)|(-> & T0 & _)]); rewrite T in C; rewrite T0; exact C. }
  rewrite Ck. cbn [bind py_assert]. set (g1 := if _ && _ then _ else g). assert (E1 : f_id g1 = f_id g) by (subst g1; destruct (_ && _); reflexivity). clearbody g1.
  rewrite (M 2 g1 E1). cbn [bind]. assert (Cm : is_completion t0 = Ok false) by (unfold is_completion, get_fc_type; destruct type1 as (ty & _ & [(_ & -> & _)|(_ & -> & _)]); reflexivity).
  unfold note_status. rewrite Cm. cbn [bind]. reflexivity.
Qed.
Lemma cpl_ok br g g' c : cfg_answer br t0 g = Ok (g', c) -> tlp_check c = Ok true /\ requester_id c = id0 /\ exists ty, fmt_type c = Ok ty /\ In ty [CPL; CPL_DATA].
Proof.
  intros A. assert (D : cfg_deliver (cfg_rd br) (cfg_wr br) (fun _ => tag t) g t = Ok (g', [c])).
  { apply one_deliver; [exact One|]. replace (set_tag (tag t) t) with t by (destruct t; reflexivity). exact A. }
  destruct One as (_ & _ & _ & R). destruct (answer_ok _ _ _ _ _ _ _ D) as (C & R' & T). rewrite R in R'. auto.
Qed.
Definition outcome (z : net) : res (net * list tlp) :=
  match leads b d f z with None => Ok (z, []) | Some (g, br) => '(g', c) <- cfg_answer br t0 g ;; Ok (instead g' b d f z, [c]) end.
Lemma goes_down g l : covers b (Net g true l) = true -> exists g1 t1, br_upstream_recv t g = Ok (g1, [Fwd Down t1]) /\ t1 = (if b =? fst (bus_range g) then t0 else t).
Proof.
  intros Cv. pose proof (claims_covers (Net g true l)) as Cl. rewrite Cv in Cl. unfold net_claims in Cl. cbn [net_bars] in Cl. unfold br_upstream_recv. destruct One as (Ck & _). rewrite Ck. cbn [bind py_assert].
  set (g1 := if _ && _ then _ else g). assert (E1 : bus_range g1 = bus_range g) by (subst g1; destruct (_ && _); reflexivity). clearbody g1.
  destruct type1 as (ty & T & Ty). assert (M : match_tlp 2 g1 t = Ok false) by (unfold match_tlp; rewrite T; destruct Ty as [(-> & _)|(-> & _)]; reflexivity). rewrite M. cbn [bind].
  assert (Se : match_secondary g1 t = Ok true).
  { unfold match_secondary. rewrite T, Co, (id_no _ _ Nh). cbn [bind bus negb]. unfold covers in Cv. cbn [net_br net_fn andb] in Cv. change (f_attr g1 fn_sec_bus_num) with (fst (bus_range g1)). change (f_attr g1 fn_sub_bus_num) with (snd (bus_range g1)).
    rewrite E1, Cv. destruct Ty as [(-> & _)|(-> & _)]; reflexivity. }
  rewrite Se. cbn [bind]. rewrite T. cbn [bind]. rewrite Co. cbn [bus]. change (f_attr g1 fn_sec_bus_num) with (fst (bus_range g1)). rewrite E1.
  assert (Ck0 : tlp_check t0 = Ok true).
  { unfold tlp_check in *. change (tlen t0) with (tlen t). change (data t0) with (data t). change (fmt t0) with (fmt t). destruct Ty as [(-> & T0 & _)|(-> & T0 & _)]; rewrite T in Ck; rewrite T0; exact Ck. }
  unfold send_to, br_sends. destruct (b =? fst (bus_range g)).
  - destruct Ty as [(-> & _ & ->)|(-> & _ & ->)]; rewrite Ck0; cbn [bind py_assert]; eexists; eexists; split; reflexivity.
  - rewrite Ck. cbn [bind py_assert]. eexists. eexists. split; reflexivity.
Qed.
Lemma ask_all z : forall sw root, covers b z = true -> 1 <= b \/ b = 0 /\ fst (bus_range (net_fn z)) = 0 -> root = true \/ f_id (net_fn z) <> id0 -> awake z -> ask sw root z t = outcome z.
Proof.
  induction z as [g br l IH] using net_rect'. intros sw root Cv Hb W Aw. assert (Eb : br = true) by (unfold covers in Cv; cbn in Cv; destruct br; [reflexivity|discriminate Cv]). subst br.
  cbn [ask]. destruct (goes_down g l Cv) as (g1 & t1 & -> & ->). cbn [bind]. unfold outcome. cbn [leads instead net_fn] in *.
  assert (Pass : forall k l' br' g0 g' c, cfg_answer br' t0 g0 = Ok (g', c) -> (if sw then switched root g k l' c else through root c g) = Ok (Passes c)).
  { intros k l' br' g0 g' c A. destruct (cpl_ok br' g0 g' c A) as (C & R & ty & T & Ty).  destruct sw; [exact (passes_switch root g k l' c ty C T Ty R W)|exact (passes_on root c g ty C T Ty R W)]. }
  assert (Aw' : forall c, In c l -> awake c) by (intros [c bc k] I q Iq; apply Aw; cbn [below]; apply in_flat_map; exists (Net c bc k); split; [exact I|right; exact Iq]).
  assert (Id' : forall c, In c l -> covers b c = true -> b <> 0 -> f_id (net_fn c) <> id0).
  { intros [c bc k] I C0 Nb E. unfold covers in C0. cbn [net_br net_fn] in *. destruct bc; [|discriminate C0]. assert (snd (bus_range c) <= 0) by (apply (Aw c); [cbn [below]; apply in_flat_map; exists (Net c true k); split; [exact I|left; reflexivity]|exact E]). lia. }
  clear Aw Cv W. destruct (b =? fst (bus_range g)) eqn:Es.
  - (* on the bus *)
    assert (G : forall l, exists k, first_asked (net_claims t0) (fun z => ask (negb sw) false z t0) l =
      match (fix go (l : list net) : option (fnc * bool) := match l with [] => None | c :: r => if sits d f c then Some (net_fn c, net_br c) else go r end) l with
      | None => Ok (k, l, [])
      | Some (g0, br) => '(g', c) <- cfg_answer br t0 g0 ;;
        Ok (k, (fix go (l : list net) : list net := match l with [] => [] | c :: r => if sits d f c then match c with Net _ br k => Net g' br k end :: r else c :: go r end) l, [c]) end).
    { clear IH Pass Aw' Id' l. intros l. induction l as [|c r [k IHr]]; [exists O; reflexivity|]. cbn [first_asked]. rewrite claims_sits. cbn [bind]. destruct (sits d f c) eqn:Si.
      - exists O. destruct c as [gc bc kc]. rewrite (ask_here _ _ gc bc kc Si). cbn [net_fn net_br]. destruct (cfg_answer bc t0 gc) as [[g' c0]|e]; reflexivity.
      - exists (S k). cbn [first_asked] in IHr. rewrite IHr. destruct ((fix go (l : list net) : option (fnc * bool) := match l with [] => None | c :: r => if sits d f c then Some (net_fn c, net_br c) else go r end) r) as [[g0 br]|]; [|reflexivity].
        destruct (cfg_answer br t0 g0) as [[g' c0]|e]; reflexivity. }
    destruct (G l) as (k & ->). destruct ((fix go (l : list net) : option (fnc * bool) := match l with [] => None | c :: r => if sits d f c then Some (net_fn c, net_br c) else go r end) l) as [[g0 br]|]; [|reflexivity].
    destruct (cfg_answer br t0 g0) as [[g' c]|e] eqn:A; [|reflexivity]. cbn [bind ascend]. rewrite (Pass k _ br g0 g' c A). reflexivity.
  - (* beyond *)
    assert (Nb : b <> 0) by lia.
    assert (G : forall l, Forall (fun z => forall sw root, covers b z = true -> 1 <= b \/ b = 0 /\ fst (bus_range (net_fn z)) = 0 -> root = true \/ f_id (net_fn z) <> id0 -> awake z -> ask sw root z t = outcome z) l ->
      (forall c, In c l -> awake c) -> (forall c, In c l -> covers b c = true -> b <> 0 -> f_id (net_fn c) <> id0) -> exists k, first_asked (net_claims t) (fun z => ask (negb sw) false z t) l =
      match (fix go (l : list net) : option (fnc * bool) := match l with [] => None | c :: r => if covers b c then leads b d f c else go r end) l with
      | None => Ok (k, l, [])
      | Some (g0, br) => '(g', c) <- cfg_answer br t0 g0 ;;
        Ok (k, (fix go (l : list net) : list net := match l with [] => [] | c :: r => if covers b c then instead g' b d f c :: r else c :: go r end) l, [c]) end).
    { clear IH Pass Aw' Id' l. assert (Hb' : 1 <= b) by lia. clear Hb Es g g1. intros l IH Aw Id. induction l as [|c r IHr]; [exists O; reflexivity|]. inversion IH as [|? ? IH1 IH2]; subst.
      destruct (IHr IH2 (fun c I => Aw c (or_intror I)) (fun c I => Id c (or_intror I))) as [k IHk]. clear IHr. cbn [first_asked]. rewrite claims_covers. cbn [bind]. destruct (covers b c) eqn:Si.
      - exists O. rewrite (IH1 (negb sw) false eq_refl (or_introl Hb') (or_intror (Id c (or_introl eq_refl) Si Nb)) (Aw c (or_introl eq_refl))). unfold outcome. destruct (leads b d f c) as [[g0 br]|]; [|reflexivity].
        destruct (cfg_answer br t0 g0) as [[g' c0]|e]; reflexivity.
      - exists (S k). cbn [first_asked] in IHk. rewrite IHk. destruct ((fix go (l : list net) : option (fnc * bool) := match l with [] => None | c :: r => if covers b c then leads b d f c else go r end) r) as [[g0 br]|]; [|reflexivity].
        destruct (cfg_answer br t0 g0) as [[g' c0]|e]; reflexivity. }
    destruct (G l IH Aw' Id') as (k & ->). destruct ((fix go (l : list net) : option (fnc * bool) := match l with [] => None | c :: r => if covers b c then leads b d f c else go r end) l) as [[g0 br]|]; [|reflexivity].
    destruct (cfg_answer br t0 g0) as [[g' c]|e] eqn:A; [|reflexivity]. cbn [bind ascend]. rewrite (Pass k _ br g0 g' c A). reflexivity.
Qed.
End Request.
