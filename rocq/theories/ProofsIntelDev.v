(** The Intel device models. *)
From Verif Require Import Base BaseProofs ModelUtils ModelTlp ModelAttrs ModelConfig ModelFunction ModelRoute ModelFrames ModelUs ModelUsDev ModelIntel ModelIntelDev
  SpecTlp SpecBar SpecRoute SpecUsRoute SpecIntel SpecIntelDev ProofsTlp ProofsBar ProofsRoute ProofsUsRoute ProofsIntelTlp.
From Coq Require Import Lia.

(** ** Frames *)
Lemma of_ext v f g : t_hdr f = t_hdr g -> t_data f = t_data g -> tlp_of_frame v f = tlp_of_frame v g.
Proof. intros A B. unfold tlp_of_frame. rewrite A, B. reflexivity. Qed.
Lemma check_range b fn g : pt_check_parity (with_range b fn g) = pt_check_parity g.
Proof. reflexivity. Qed.
Lemma frame_vf v t g : frame_of_tlp v t = Ok g -> t_vf g = None.
Proof.
  unfold frame_of_tlp. destruct (pack_header t) as [h|]; [cbn [bind]|discriminate]. destruct v.
  - destruct (get_words struct_unpack_be h); [cbn [bind]|discriminate]. destruct (get_words struct_unpack_le (data t)); [cbn [bind]|discriminate]. intros E. apply Ok_inj in E. now subst g.
  - destruct (get_words struct_unpack_le (data t)); [cbn [bind]|discriminate]. unfold pt_update_parity.
    match goal with |- context [parity ?x] => destruct (parity x) end; [cbn [bind]|discriminate]. intros E. apply Ok_inj in E. now subst g.
Qed.
Lemma range_good c b fn g : good_iframe c g -> 0 <= b < 8 -> 0 <= fn < match dv c with PTile => 8 | HTile => if ig c =? 1 then 4 else if ig c =? 2 then 2 else 1 end ->
  t_vf g = None -> good_iframe c (with_range b fn g).
Proof.
  intros G B F V. destruct G. constructor; cbn [with_range t_prfx t_hdr t_data t_prfx_par t_hdr_par t_parity t_func t_vf t_bar t_err]; first [assumption|intros _; assumption].
Qed.
Lemma range_framed v ty k t b fn g : sendable ty k t -> frame_of_tlp v t = Ok g -> framed v t b fn (with_range b fn g).
Proof.
  intros S E. pose proof (frame_vf v t g E) as V.
  assert (A : forall c, dv c = v -> good_iframe c g /\ tlp_of_frame v g = Ok (on_wire ty k t) /\ tlp_of_frame v (carried_iframe c g) = Ok (on_wire ty k t) /\
    t_parity g = data_parity (t_data g) /\ (v = PTile -> pt_check_parity g = Ok true)).
  { intros c W. destruct (tlp_frame c ty k t S) as (f & E' & G & R & R' & P & C & _). rewrite W in *. rewrite E in E'. apply Ok_inj in E'. subst f. auto. }
  destruct (A (mkIn v 256 1 (fun _ => true)) eq_refl) as (_ & R & _ & P & C).
  split; [reflexivity|]. split; [reflexivity|]. split; [exact V|]. split; [exact P|]. split; [intros Y; rewrite check_range; exact (C Y)|]. split.
  - exists ty, k. split; [exact S|]. split; [rewrite <- R; apply of_ext; reflexivity|]. intros c W. destruct (A c W) as (_ & _ & R' & _).
    rewrite <- R'. apply of_ext; reflexivity.
  - intros c W B F. apply range_good; [apply (A c W)|exact B|rewrite W; exact F|exact V].
Qed.
Lemma sendable_frame v ty k t : sendable ty k t -> exists g, frame_of_tlp v t = Ok g.
Proof. intros S. destruct (tlp_frame (mkIn v 256 1 (fun _ => true)) ty k t S) as (f & E & _). exists f. exact E. Qed.

(** ** Routing *)
Lemma intel_request v t ty k io d ls : sendable ty k t -> route_of ty t = TAddr io (address t) ->
  Forall2 (fun p l => bars (fst p) (snd p) l (TAddr io (address t))) (d_fns d) ls ->
  fmt_type t = Ok ty ->
  exists act, intel_recv v t d = Ok (d, act) /\
  match act with
  | XReq g => exists j f n l i w m base, nth_error (d_fns d) j = Some (f, n) /\ nth_error ls j = Some l /\
      In (i, w, m, base) (windows 0 l) /\ is_io w = io /\ base <= address t < base + 2 ^ m /\ unclaimed io (address t) (firstn j ls) /\
      framed v t (if io then 6 else i) (func (requester_id t)) g
  | XDrop => (ty = MEM_WRITE \/ ty = MEM_WRITE_64) /\ unclaimed io (address t) ls
  | XAnswer c => ty <> MEM_WRITE /\ ty <> MEM_WRITE_64 /\ unclaimed io (address t) ls /\ is_answer UR c t (mkId (d_bus d) 0 0)
  | _ => False
  end.
Proof.
  intros S R F T. destruct (first_bar_spec io (address t) _ _ F) as (x & E & X). destruct (sendable_frame v ty k t S) as (g & G).
  unfold intel_recv. rewrite T. cbn [bind]. destruct x as [[f i]|].
  - destruct X as (j & n & l & w & m & base & X1 & X2 & X3 & X4 & X5 & X6).
    exists (XReq (with_range (if io then 6 else i) (func (requester_id t)) g)). split.
    + destruct ty; cbn [route_of] in R; try discriminate; injection R as <-; rewrite E; cbn [bind]; rewrite G; reflexivity.
    + exists j, f, n, l, i, w, m, base. repeat (split; [first [assumption|reflexivity]|]). eapply range_framed; eauto.
  - destruct ty; cbn [route_of] in R; try discriminate; injection R as <-; rewrite E; cbn [bind];
      rewrite ?ur_check; cbn [bind py_assert]; eexists; (split; [reflexivity|]); cbn; auto;
      repeat (split; [first [discriminate|assumption]|]); repeat split.
Qed.
Lemma intel_config v t ty d : fmt_type t = Ok ty -> (ty = CFG_READ_0 \/ ty = CFG_WRITE_0) -> 0 <= bus (completer_id t) < 256 ->
  Forall (fun p => bus (f_id (fst p)) = d_bus d) (d_fns d) ->
  exists d' act, intel_recv v t d = Ok (d', act) /\ d_bus d' = bus (completer_id t) /\
  Forall2 (fun p p' => snd p' = snd p /\ fst p' = with_id (mkId (bus (completer_id t)) (device (f_id (fst p))) (func (f_id (fst p)))) (fst p)) (d_fns d) (d_fns d') /\
  match act with
  | XFn k => (exists p, nth_error (d_fns d) k = Some p /\ addressed_fn t p = true) /\ Forall (fun p => addressed_fn t p = false) (firstn k (d_fns d))
  | XAnswer c => Forall (fun p => addressed_fn t p = false) (d_fns d) /\ is_answer UR c t (mkId (bus (completer_id t)) 0 0)
  | _ => False
  end.
Proof.
  intros T Y B F. destruct (us_config us_core t ty d T Y B F) as (d' & act & E & D & F2 & M). exists d'.
  assert (X : intel_recv v t d = match us_upstream_recv us_core true t d with Ok (d, VFn k) => Ok (d, XFn k) | Ok (d, VAnswer c) => Ok (d, XAnswer c) | Ok _ => Err PyException | Err e => Err e end).
  { unfold intel_recv, us_upstream_recv. rewrite T. cbn [bind]. destruct Y as [-> | ->]; cbn [negb]; (destruct (set_bus (bus (completer_id t)) d) as [d1|]; [cbn [bind]|reflexivity]);
      (destruct (by_id 0 (completer_id t) (d_fns d1)); [reflexivity|]); unfold answer_with; rewrite ?ur_check; reflexivity. }
  rewrite E in X. destruct act as [k| | |c|]; try contradiction.
  - exists (XFn k). split; [exact X|]. split; [exact D|]. split; [exact F2|exact M].
  - exists (XAnswer c). split; [exact X|]. split; [exact D|]. split; [exact F2|exact M].
Qed.
Lemma intel_type1 v t ty d : fmt_type t = Ok ty -> (ty = CFG_READ_1 \/ ty = CFG_WRITE_1) ->
  exists c, intel_recv v t d = Ok (d, XAnswer c) /\ is_answer UR c t (mkId (d_bus d) 0 0).
Proof.
  intros T Y. exists (create_ur_completion t (mkId (d_bus d) 0 0)). unfold intel_recv. rewrite T. split; [destruct Y as [->| ->]; reflexivity|repeat split].
Qed.
Lemma intel_completion v t ty k d : sendable ty k t -> fmt_type t = Ok ty -> completion t = true ->
  if existsb (fun p => id_eqb (f_id (fst p)) (requester_id t)) (d_fns d)
  then exists g, intel_recv v t d = Ok (d, XCpl g) /\ framed v t 0 (func (requester_id t)) g
  else intel_recv v t d = Ok (d, XDrop).
Proof.
  intros S T Y. destruct (sendable_frame v ty k t S) as (g & G).
  assert (B0 : t_bar g = 0).
  { destruct (tlp_frame (mkIn v 256 1 (fun _ => true)) ty k t S) as (f & E' & _ & _ & _ & _ & _ & K). cbn [dv] in E'. rewrite G in E'. apply Ok_inj in E'. subst f.
    apply (f_equal t_bar) in K. exact K. }
  assert (Y' : ty = CPL \/ ty = CPL_DATA \/ ty = CPL_LOCKED \/ ty = CPL_LOCKED_DATA).
  { unfold completion in Y. rewrite T in Y. destruct ty; try discriminate; auto. }
  pose proof (us_completion us_core true t ty d T Y') as U.
  assert (X : intel_recv v t d = match us_upstream_recv us_core true t d with Ok (_, VCpl) => Ok (d, XCpl (with_range 0 (func (requester_id t)) g)) | Ok _ => Ok (d, XDrop) | Err e => Err e end).
  { clear U. unfold intel_recv, us_upstream_recv. rewrite T. cbn [bind]. destruct Y' as [->|[->|[->| ->]]]; (destruct (by_id 0 (requester_id t) (d_fns d)); [|reflexivity]);
      rewrite G; cbn [bind]; rewrite B0; reflexivity. }
  rewrite U in X. destruct (existsb _ _); [|exact X]. eexists. split; [exact X|]. eapply range_framed; eauto.
Qed.

(** ** Executions *)
Lemma collect_all {A} : forall (l : list (res A)) xs, collect l = Ok xs -> forall r, In r l -> exists x, r = Ok x.
Proof.
  induction l as [|r l IH]; intros xs H q [].
  - subst q. cbn [collect] in H. destruct r; [eauto|discriminate].
  - cbn [collect] in H. destruct r; [cbn [bind] in H|discriminate]. destruct (collect l) as [ys|] eqn:E; [|discriminate]. eapply IH; eauto.
Qed.
Lemma get_words_whole p w : get_words struct_unpack_le p = Ok w -> zlen p mod 4 = 0.
Proof.
  unfold get_words, zlen. intros H. destruct (Nat.eq_dec (length p mod 4) 0) as [E|E].
  - apply (f_equal Z.of_nat) in E. rewrite Nat2Z.inj_mod in E. exact E.
  - destruct (collect_all _ _ H (struct_unpack_le 4 p (4 * (length p / 4)))) as [x X].
    + apply (in_map (fun k => struct_unpack_le 4 p (4 * k))). apply in_seq.
      pose proof (Nat.div_mod (length p) 4 ltac:(lia)). pose proof (Nat.mod_upper_bound (length p) 4 ltac:(lia)).
      split; [lia|]. cbn [plus]. apply Nat.lt_le_trans with (Datatypes.S (length p / 4)); [lia|]. apply Nat.div_le_lower_bound; lia.
    + unfold struct_unpack_le in X. pose proof (Nat.div_mod (length p) 4 ltac:(lia)). pose proof (Nat.mod_upper_bound (length p) 4 ltac:(lia)).
      destruct (Nat.leb_spec (4 * (length p / 4) + 4) (length p)); [lia|discriminate].
Qed.
Lemma frame_whole v t g : frame_of_tlp v t = Ok g -> zlen (data t) mod 4 = 0.
Proof.
  unfold frame_of_tlp. destruct (pack_header t) as [h|]; [cbn [bind]|discriminate]. destruct v.
  - destruct (get_words struct_unpack_be h); [cbn [bind]|discriminate]. destruct (get_words struct_unpack_le (data t)) eqn:E; [|discriminate]. intros _. eapply get_words_whole; eauto.
  - destruct (get_words struct_unpack_le (data t)) eqn:E; [|discriminate]. intros _. eapply get_words_whole; eauto.
Qed.
Lemma recv_shape v t d d' a : intel_recv v t d = Ok (d', a) ->
  match a with
  | XCpl _ => completion t = true /\ zlen (data t) mod 4 = 0
  | XReq _ => completion t = false /\ zlen (data t) mod 4 = 0
  | _ => True
  end.
Proof.
  unfold intel_recv, completion. destruct (fmt_type t) as [ty|]; [cbn [bind]|discriminate].
  assert (U : forall d, (ok <- tlp_check (create_ur_completion t (mkId (d_bus d) 0 0)) ;; _ <- py_assert ok ;; Ok (d, XAnswer (create_ur_completion t (mkId (d_bus d) 0 0)))) =
    Ok (d, XAnswer (create_ur_completion t (mkId (d_bus d) 0 0)))) by (intros d1; rewrite ur_check; reflexivity).
  assert (Q : forall io x, (b <- first_bar io (address t) (d_fns d) ;;
      match b with
      | Some (_, i) => g <- frame_of_tlp v t ;; Ok (d, XReq (with_range (if io then 6 else i) (func (requester_id t)) g))
      | None => x
      end) = Ok (d', a) -> x = Ok (d', a) \/ ((exists g, a = XReq g) /\ zlen (data t) mod 4 = 0)).
  { intros io x. destruct (first_bar io (address t) (d_fns d)) as [[[f i]|]|]; [cbn [bind]|cbn [bind]; auto|discriminate].
    destruct (frame_of_tlp v t) as [g|] eqn:G; [cbn [bind]|discriminate]. intros H. right. apply Ok_inj in H. apply (f_equal snd) in H. cbn in H. subst a. split; [eauto|]. eapply frame_whole; eauto. }
  destruct ty; try discriminate; rewrite ?U; intros H;
    try (apply Q in H as [H|[[g ->] H]]; [apply Ok_inj in H; apply (f_equal snd) in H; cbn in H; subst a; exact Logic.I|split; [reflexivity|exact H]]);
    try (apply Ok_inj in H; apply (f_equal snd) in H; cbn in H; subst a; exact Logic.I);
    try (destruct (set_bus (bus (completer_id t)) d) as [d1|]; [cbn [bind] in H|discriminate]; destruct (by_id 0 (completer_id t) (d_fns d1)); rewrite ?U in H;
      apply Ok_inj in H; apply (f_equal snd) in H; cbn in H; subst a; exact Logic.I);
    (destruct (by_id 0 (requester_id t) (d_fns d)); [destruct (frame_of_tlp v t) as [g|] eqn:G; [cbn [bind] in H|discriminate]|];
      apply Ok_inj in H; apply (f_equal snd) in H; cbn in H; subst a; [|exact Logic.I]; split; [reflexivity|]; eapply frame_whole; eauto).
Qed.
Lemma credits t : zlen (data t) mod 4 = 0 -> get_data_credits t = (zlen (data t) + 15) / 16.
Proof. intros H. unfold get_data_credits, get_payload_size_dw. set (n := zlen (data t)) in *. lia. Qed.
Lemma units_app a b : data_units (a ++ b) = data_units a + data_units b.
Proof. induction a as [|t a IH]; cbn [data_units fold_right app]; [reflexivity|]. unfold data_units in *. rewrite IH. lia. Qed.
Lemma units_pos l : 0 <= data_units l.
Proof. induction l as [|t l IH]; cbn [data_units fold_right]; [lia|]. unfold data_units in IH. assert (0 <= zlen (data t)) by (unfold zlen; lia). assert (0 <= (zlen (data t) + 15) / 16) by (apply Z.div_pos; lia). lia. Qed.
Lemma cpls_app a b : completions (a ++ b) = completions a ++ completions b.
Proof. unfold completions. now rewrite map_app, filter_app. Qed.
Lemma reqs_app a b : requests (a ++ b) = requests a ++ requests b.
Proof. unfold requests. now rewrite map_app, filter_app. Qed.
Lemma zlen_plus {A} (a b : list A) : zlen (a ++ b) = zlen a + zlen b.
Proof. unfold zlen. rewrite app_length. lia. Qed.

Record iinv (o : iopt) (s : idev) (gone : list (tlp * pt_frame)) : Prop := {
  iv_in : entered (y_log s) = gone ++ held s;
  iv_out : streamed (y_log s) = map snd (gone ++ sending s);
  iv_whole : Forall (fun x => zlen (data (fst x)) mod 4 = 0) (held s);
  iv_h : 0 <= y_hc s <= io_cplh o /\ y_hc s <= zlen (completions (held s)) <= y_hc s + zlen (requests gone);
  iv_d : 0 <= y_dc s <= io_cpld o /\ y_dc s <= data_units (completions (held s)) <= y_dc s + data_units (requests gone) }.
Lemma iinv_same o s gone d e : iinv o s gone -> entered [e] = [] -> streamed [e] = [] ->
  iinv o (mkIdev d (y_q s) (y_busy s) (y_hc s) (y_dc s) (y_log s ++ [e])) gone.
Proof.
  intros [A B C D E] X Y. constructor; cbn [y_log y_hc y_dc y_q y_busy]; try assumption; unfold entered, streamed in *; rewrite flat_map_app, ?X, ?Y, app_nil_r; assumption.
Qed.
Lemma iinv_add o s gone d t g a b : iinv o s gone -> entered [JIn t a b] = [(t, g)] -> zlen (data t) mod 4 = 0 ->
  (if completion t then y_hc s + 1 <= io_cplh o /\ y_dc s + get_data_credits t <= io_cpld o else True) ->
  iinv o (mkIdev d (y_q s ++ [(t, g)]) (y_busy s) (if completion t then y_hc s + 1 else y_hc s) (if completion t then y_dc s + get_data_credits t else y_dc s) (y_log s ++ [JIn t a b])) gone.
Proof.
  intros [A B C D E] X Z Y. 
  assert (Hd : held (mkIdev d (y_q s ++ [(t, g)]) (y_busy s) (if completion t then y_hc s + 1 else y_hc s) (if completion t then y_dc s + get_data_credits t else y_dc s) (y_log s ++ [JIn t a b])) = held s ++ [(t, g)]).
  { unfold held, sending. cbn [y_q y_busy]. now rewrite app_assoc. }
  assert (Cp : completions [(t, g)] = if completion t then [t] else []) by reflexivity.
  assert (P : 0 <= (zlen (data t) + 15) / 16) by (apply Z.div_pos; unfold zlen; lia).
  constructor; rewrite ?Hd; cbn [y_log y_hc y_dc].
  - unfold entered in *. rewrite flat_map_app, A, X, app_assoc. reflexivity.
  - unfold streamed in *. rewrite flat_map_app, B. cbn. now rewrite app_nil_r.
  - apply Forall_app. split; [exact C|]. constructor; [exact Z|constructor].
  - rewrite cpls_app, zlen_plus, Cp. destruct (completion t); unfold zlen in *; cbn [length]; lia.
  - rewrite cpls_app, units_app, Cp. rewrite (credits t Z) in *. destruct (completion t); cbn [data_units fold_right]; lia.
Qed.
Lemma iinv_step o l s s' gone : iinv o s gone -> istep o l s = Ok s' -> exists gone', iinv o s' gone'.
Proof.
  intros V H. destruct l; cbn [istep] in H.
  - apply Ok_inj in H. subst s'. exists gone. destruct V as [A B C D E]. constructor; assumption.
  - destruct (intel_recv (io_tile o) t (y_dev s)) as [[d a]|] eqn:R; [cbn [bind] in H|discriminate]. exists gone.
    pose proof (recv_shape _ _ _ _ _ R) as W. destruct a as [k|g|g|c|].
    + apply Ok_inj in H. subst s'. apply iinv_same; [exact V|reflexivity|reflexivity].
    + destruct W as [Y Z]. destruct (_ && _) eqn:G in H.
      * apply Ok_inj in H. subst s'. pose proof (iinv_add o s gone d t g (XCpl g) true V eq_refl Z) as Q. rewrite Y in Q. apply Q. lia.
      * apply Ok_inj in H. subst s'. apply iinv_same; [exact V|reflexivity|reflexivity].
    + destruct W as [Y Z]. apply Ok_inj in H. subst s'. pose proof (iinv_add o s gone d t g (XReq g) true V eq_refl Z) as Q. rewrite Y in Q. apply Q. exact Logic.I.
    + apply Ok_inj in H. subst s'. apply iinv_same; [exact V|reflexivity|reflexivity].
    + apply Ok_inj in H. subst s'. apply iinv_same; [exact V|reflexivity|reflexivity].
  - exists gone. destruct (y_busy s) as [x|] eqn:Bu; [apply Ok_inj in H; now subst s'|]. destruct (y_q s) as [|[t g] r] eqn:Q; apply Ok_inj in H; subst s'; [exact V|].
    destruct V as [A B C D E]. assert (Hd : held s = held (mkIdev (y_dev s) r (Some (t, g)) (y_hc s) (y_dc s) (y_log s ++ [JOut g]))) by (unfold held, sending; cbn; rewrite Bu, Q; reflexivity).
    constructor; rewrite <- ?Hd; cbn [y_log y_hc y_dc]; try assumption.
    + unfold entered in *. rewrite flat_map_app, A. cbn. now rewrite app_nil_r.
    + unfold streamed in *. rewrite flat_map_app, B. unfold sending. rewrite Bu. cbn. now rewrite !map_app, app_nil_r.
  - destruct (y_busy s) as [[t g]|] eqn:Bu; apply Ok_inj in H; subst s'; [|exists gone; exact V]. exists (gone ++ [(t, g)]).
    destruct V as [A B C D E].
    assert (Hd : held s = [(t, g)] ++ y_q s) by (unfold held, sending; rewrite Bu; reflexivity).
    assert (Hs : sending s = [(t, g)]) by (unfold sending; rewrite Bu; reflexivity).
    rewrite Hd in *. rewrite Hs in *. pose proof (Forall_inv C) as Z. cbn [fst] in Z. apply (Forall_inv_tail) in C.
    assert (P : 0 <= (zlen (data t) + 15) / 16) by (apply Z.div_pos; unfold zlen; lia).
    assert (Cp : completions [(t, g)] = if completion t then [t] else []) by reflexivity.
    assert (Rp : requests [(t, g)] = if completion t then [] else [t]) by (unfold requests; cbn; destruct (completion t); reflexivity).
    rewrite cpls_app, ?zlen_plus, ?units_app, Cp in *.
    pose proof (units_pos (completions (y_q s))). pose proof (units_pos (requests gone)). assert (0 <= zlen (completions (y_q s))) by (unfold zlen; lia).
    assert (0 <= zlen (requests gone)) by (unfold zlen; lia).
    constructor; unfold held, sending; cbn [y_log y_hc y_dc y_busy y_q app].
    + rewrite A. now rewrite <- app_assoc.
    + rewrite B. now rewrite app_nil_r.
    + exact C.
    + rewrite reqs_app, zlen_plus, Rp. destruct (completion t); unfold zlen in D |- *; cbn [length] in D |- *; fold (zlen (requests gone)) (zlen (completions (y_q s))) in *; lia.
    + rewrite reqs_app, units_app, Rp. rewrite (credits t Z). destruct (completion t); cbn [data_units fold_right] in E |- *; lia.
  - destruct (tlp_of_frame (io_tile o) f) as [t|]; [cbn [bind] in H|discriminate]. destruct (tlp_check t) as [b|]; [cbn [bind] in H|discriminate].
    destruct b; [cbn [py_assert bind] in H|discriminate]. apply Ok_inj in H. subst s'. exists gone. apply iinv_same; [exact V|reflexivity|reflexivity].
Qed.
Lemma iinv_run o : forall ls s gone s', iinv o s gone -> irun o ls s = Ok s' -> exists gone', iinv o s' gone'.
Proof.
  induction ls as [|l ls IH]; intros s gone s' V H; cbn [irun] in H; [apply Ok_inj in H; subst; eauto|].
  destruct (istep o l s) as [s1|] eqn:E; [cbn [bind] in H|discriminate]. destruct (iinv_step o l s s1 gone V E) as [g1 V1]. eapply IH; eauto.
Qed.
Lemma iinv_0 o d : 0 <= io_cplh o -> 0 <= io_cpld o -> iinv o (idev0 d) [].
Proof. intros A B. constructor; cbn; [reflexivity|reflexivity|constructor|unfold zlen; cbn; lia|cbn; lia]. Qed.
Lemma istep_log o l s s' : istep o l s = Ok s' -> exists e, y_log s' = y_log s ++ e /\ arrived_tlps e = received [l] /\ map fst (sent_up e) = tx_frames [l] /\
  Forall (fun x => tlp_of_frame (io_tile o) (fst x) = Ok (snd x) /\ tlp_check (snd x) = Ok true) (sent_up e).
Proof.
  assert (N : forall s0, Ok s0 = Ok s' -> y_log s0 = y_log s -> exists e, y_log s' = y_log s ++ e /\ arrived_tlps e = [] /\ map fst (sent_up e) = [] /\
    Forall (fun x => tlp_of_frame (io_tile o) (fst x) = Ok (snd x) /\ tlp_check (snd x) = Ok true) (sent_up e)).
  { intros s0 H E. apply Ok_inj in H. subst s0. exists []. rewrite app_nil_r. repeat split; auto; constructor. }
  destruct l; cbn [istep]; intros H.
  - eapply N; eauto.
  - destruct (intel_recv (io_tile o) t (y_dev s)) as [[d a]|]; [cbn [bind] in H|discriminate].
    destruct a; [| destruct (_ && _) in H| | |]; apply Ok_inj in H; subst s'; cbn [y_log]; eexists; (split; [reflexivity|]); repeat split; constructor.
  - destruct (y_busy s); [eapply N; eauto|]. destruct (y_q s) as [|[t g] r]; [eapply N; eauto|]. apply Ok_inj in H. subst s'. eexists. split; [reflexivity|]. repeat split. constructor.
  - destruct (y_busy s) as [[t g]|]; eapply N; eauto.
  - destruct (tlp_of_frame (io_tile o) f) as [t|] eqn:F; [cbn [bind] in H|discriminate]. destruct (tlp_check t) as [b|] eqn:C; [cbn [bind] in H|discriminate].
    destruct b; [cbn [py_assert bind] in H|discriminate]. apply Ok_inj in H. subst s'. eexists. split; [reflexivity|]. repeat split. cbn. constructor; [split; assumption|constructor].
Qed.
Lemma irun_log o : forall ls s s', irun o ls s = Ok s' -> exists e, y_log s' = y_log s ++ e /\ arrived_tlps e = received ls /\ map fst (sent_up e) = tx_frames ls /\
  Forall (fun x => tlp_of_frame (io_tile o) (fst x) = Ok (snd x) /\ tlp_check (snd x) = Ok true) (sent_up e).
Proof.
  induction ls as [|l ls IH]; intros s s' H; cbn [irun] in H.
  - apply Ok_inj in H. subst s'. exists []. rewrite app_nil_r. repeat split. constructor.
  - destruct (istep o l s) as [s1|] eqn:E; [cbn [bind] in H|discriminate]. destruct (istep_log o l s s1 E) as (e1 & A1 & B1 & C1 & D1).
    destruct (IH s1 s' H) as (e2 & A2 & B2 & C2 & D2). exists (e1 ++ e2). rewrite A2, A1, app_assoc. split; [reflexivity|].
    unfold arrived_tlps, sent_up, received, tx_frames in *. rewrite !flat_map_app, map_app. rewrite B1, B2, C1, C2. cbn [flat_map]. rewrite !app_nil_r. repeat split.
    apply Forall_app. auto.
Qed.
Lemma intel_order o d ls s : usual_limits o -> irun o ls (idev0 d) = Ok s -> arrived_tlps (y_log s) = received ls /\
  exists gone, entered (y_log s) = gone ++ held s /\ streamed (y_log s) = map snd (gone ++ sending s).
Proof.
  intros [A B] H. destruct (irun_log o ls _ _ H) as (e & L & R & _). cbn in L. subst e. split; [exact R|].
  destruct (iinv_run o ls _ _ _ (iinv_0 o d A B) H) as [gone []]. eauto.
Qed.
Lemma intel_tx o d ls s : irun o ls (idev0 d) = Ok s -> map fst (sent_up (y_log s)) = tx_frames ls /\
  Forall (fun x => tlp_of_frame (io_tile o) (fst x) = Ok (snd x) /\ tlp_check (snd x) = Ok true) (sent_up (y_log s)).
Proof. intros H. destruct (irun_log o ls _ _ H) as (e & L & _ & R). cbn in L. subst e. exact R. Qed.
Lemma intel_drop o d ls s t g s' : usual_limits o -> irun o ls (idev0 d) = Ok s -> istep o (IRecv t) s = Ok s' -> y_log s' = y_log s ++ [JIn t (XCpl g) false] ->
  ~ within o (completions (held s) ++ [t]).
Proof.
  intros [A B] H R L. destruct (iinv_run o ls _ _ _ (iinv_0 o d A B) H) as [gone [_ _ _ Vh Vd]].
  cbn [istep] in R. destruct (intel_recv (io_tile o) t (y_dev s)) as [[d' a]|] eqn:E; [cbn [bind] in R|discriminate].
  pose proof (recv_shape _ _ _ _ _ E) as W.
  assert (K : forall s0 x y, Ok s0 = Ok s' -> y_log s0 = y_log s ++ [JIn t x y] -> x = XCpl g /\ y = false).
  { intros s0 x y X Y. apply Ok_inj in X. subst s0. rewrite L in Y. apply app_inv_head in Y. injection Y as <- <-. auto. }
  destruct a as [k|g1|g1|c|]; try (destruct (K _ _ _ R eq_refl); discriminate).
  destruct W as [Y Z]. destruct (_ && _) eqn:G in R; [destruct (K _ _ _ R eq_refl); discriminate|].
  intros [I1 I2]. rewrite zlen_plus in I1. rewrite units_app in I2. unfold zlen at 2 in I1. cbn [length data_units fold_right] in I1, I2. rewrite (credits t Z) in G. lia.
Qed.
Lemma intel_buffer o d ls s : usual_limits o -> irun o ls (idev0 d) = Ok s ->
  exists gone, entered (y_log s) = gone ++ held s /\
  zlen (completions (held s)) <= io_cplh o + zlen (requests gone) /\ data_units (completions (held s)) <= io_cpld o + data_units (requests gone).
Proof.
  intros [A B] H. destruct (iinv_run o ls _ _ _ (iinv_0 o d A B) H) as [gone [I1 _ _ Vh Vd]]. exists gone. split; [exact I1|]. split; lia.
Qed.
(** Everything that was accepted is given to the stream, and the counts return to zero. *)
Definition drain (n : nat) : list ilabel := IDone :: concat (repeat [IGet; IDone] n).
Lemma irun_app o : forall a b s, irun o (a ++ b) s = (s1 <- irun o a s ;; irun o b s1).
Proof. induction a as [|l a IH]; intros b s; [reflexivity|]. cbn [app irun]. destruct (istep o l s); [cbn [bind]; apply IH|reflexivity]. Qed.
Lemma drain_run o : forall n s, length (y_q s) = n -> y_busy s = None -> exists s', irun o (concat (repeat [IGet; IDone] n)) s = Ok s' /\ y_q s' = [] /\ y_busy s' = None.
Proof.
  induction n as [|n IH]; intros s L Bu; cbn [repeat concat].
  - exists s. split; [reflexivity|]. split; [destruct (y_q s); [reflexivity|discriminate]|exact Bu].
  - destruct (y_q s) as [|[t g] r] eqn:Q; [discriminate|]. cbn [app irun istep]. rewrite Bu, Q. cbn [bind istep y_busy y_q y_dev y_hc y_dc y_log irun].
    apply IH; [cbn in L |- *; lia|reflexivity].
Qed.
Lemma intel_drained o d ls s : usual_limits o -> irun o ls (idev0 d) = Ok s ->
  exists s', irun o (drain (length (y_q s))) s = Ok s' /\ entered (y_log s') = entered (y_log s) /\ streamed (y_log s') = map snd (entered (y_log s)) /\ held s' = [] /\ y_hc s' = 0 /\ y_dc s' = 0.
Proof.
  intros [A B] H. 
  assert (D : exists s1, istep o IDone s = Ok s1 /\ y_q s1 = y_q s /\ y_busy s1 = None).
  { cbn [istep]. destruct (y_busy s) as [[t g]|] eqn:Bu; eexists; (split; [reflexivity|]); auto. }
  destruct D as (s1 & D1 & Q1 & B1). destruct (drain_run o (length (y_q s)) s1) as (s' & R & Q' & B'); [now rewrite Q1|exact B1|].
  assert (T : irun o (drain (length (y_q s))) s = Ok s') by (unfold drain; cbn [irun]; rewrite D1; exact R).
  exists s'. split; [exact T|].
  assert (F : irun o (ls ++ drain (length (y_q s))) (idev0 d) = Ok s') by (rewrite irun_app, H; exact T).
  destruct (iinv_run o _ _ _ _ (iinv_0 o d A B) F) as [gone [I1 I2 _ Vh Vd]].
  assert (Hd : held s' = []) by (unfold held, sending; rewrite Q', B'; reflexivity).
  assert (E : entered (y_log s') = entered (y_log s)).
  { assert (G : forall l s s', Forall (fun x => x = IGet \/ x = IDone) l -> irun o l s = Ok s' -> entered (y_log s') = entered (y_log s)).
    { clear. induction l as [|x l IH]; intros s s' X Y; cbn [irun] in Y; [apply Ok_inj in Y; now subst|].
      destruct (istep o x s) as [s1|] eqn:E; [cbn [bind] in Y|discriminate]. rewrite (IH s1 s' (Forall_inv_tail X) Y). pose proof (Forall_inv X) as [-> | ->]; cbn [istep] in E.
      - destruct (y_busy s); [apply Ok_inj in E; now subst|]. destruct (y_q s) as [|[t g] r]; apply Ok_inj in E; subst s1; [reflexivity|].
        cbn [y_log]. unfold entered. rewrite flat_map_app. cbn. now rewrite app_nil_r.
      - destruct (y_busy s) as [[t g]|]; apply Ok_inj in E; now subst s1. }
    apply (G (drain (length (y_q s)))); [|exact T]. unfold drain. constructor; [auto|]. clear. induction (length (y_q s)) as [|n IH]; cbn; [constructor|]. constructor; [auto|]. constructor; [auto|exact IH]. }
  split; [exact E|]. rewrite Hd, app_nil_r in I1. assert (Sd : sending s' = []) by (unfold sending; now rewrite B'). rewrite Sd, app_nil_r in I2.
  rewrite Hd in Vh, Vd. unfold zlen in Vh. cbn [completions map filter length data_units fold_right] in Vh, Vd.
  split; [rewrite I2, <- I1, E; reflexivity|]. split; [exact Hd|]. cbn in Vh. lia.
Qed.
Lemma check_on_wire ty k t : sendable ty k t -> tlp_check t = Ok true -> tlp_check (on_wire ty k t) = Ok true.
Proof.
  intros S H. destruct (sd_fits _ _ _ S) as [T K _ _ _ _ _ _ _ _]. rewrite <- H. assert (Ft : fmt_type t = Ok ty) by (apply fmt_type_iff; exact T).
  assert (Fw : fmt_type (on_wire ty k t) = Ok ty) by (rewrite <- Ft; reflexivity).
  unfold tlp_check. rewrite Ft, Fw. cbn [bind on_wire fmt tlen data address byte_count lower_address].
  destruct ty; cbn in K; try discriminate; injection K as <-; cbn in T; injection T as T _; rewrite <- T; reflexivity.
Qed.
Lemma intel_user o c t g s : dv c = io_tile o -> arrived c t g -> tlp_check t = Ok true ->
  exists ty k s', sendable ty k t /\ istep o (ITx g) s = Ok s' /\ y_log s' = y_log s ++ [JTx g (on_wire ty k t)] /\ y_dev s' = y_dev s /\ held s' = held s.
Proof.
  intros D [(ty & k & S & E) _] C. exists ty, k. rewrite D in E. eexists. split; [exact S|]. cbn [istep]. rewrite E. cbn [bind]. rewrite (check_on_wire ty k t S C). cbn [bind py_assert].
  split; [reflexivity|]. repeat split.
Qed.
