From Verif Require Import Base BaseProofs Bits ModelUtils ModelTlp ModelAttrs ModelCaps ModelCapList ModelConfig ModelFunction ModelRoute
  SpecRegs SpecConfig SpecBar SpecRoute ProofsUtils ProofsTlp ProofsMem ProofsRegs ProofsCapFn ProofsConfigLow ProofsBar ProofsRoute.

Lemma note_spec ta ma t ty g : fmt_type t = Ok ty -> route_of ty t <> TNone ->
  let c := match route_of ty t with TBack _ => true | _ => false end in
  exists h, note_status ta ma t g = Ok h /\ reports g h [(ta, c && (status t =? CA)); (ma, c && (status t =? UR))].
Proof.
  intros T N c. unfold note_status, is_completion, get_fc_type. rewrite T. cbn [bind].
  assert (F : exists k, type_fc ty = Ok k /\ (match k with FC_CPL => true | _ => false end) = c).
  { unfold c. destruct ty; cbn [route_of] in N; try congruence; eexists; (split; [reflexivity|reflexivity]). }
  destruct F as (k & -> & F2). cbn [bind]. rewrite F2. eexists. split; [reflexivity|].
  destruct c; cbn [andb]; [|apply (reports_skip _ _ _ _ (reports_skip _ _ _ _ (reports_none g)))].
  destruct (Z.eqb_spec (status t) CA) as [E|E].
  - rewrite E. change (CA =? UR) with false. exact (reports_app _ _ _ _ _ (reports_one g ta true) (reports_one _ ma false)).
  - apply reports_skip. apply (reports_one g _ (status t =? UR)).
Qed.
Lemma downstream_recv (root : bool) t ty f l : tlp_check t = Ok true -> fmt_type t = Ok ty -> route_of ty t <> TNone -> bars f 2 l (route_of ty t) ->
  let r := route_of ty t in
  exists f', br_downstream_recv root t f = Ok (f',
    if local_cfg r then [Free t; Ans Down (create_ur_completion t (f_id f))]
    else if negb root && own f l r then [Own t]
    else if root || negb (behind f r) then [Fwd Up t]
    else if non_posted ty then [Free t; Ans Down (create_ur_completion t (f_id f))] else [Free t]) /\
  reports f f' (par fn_bridge_parity_error_response_enable fn_sec_master_data_parity_error t f ::
    if local_cfg r then []
    else if negb root && own f l r then
      [(fn_sec_received_target_abort, is_back r && (status t =? CA)); (fn_sec_received_master_abort, is_back r && (status t =? UR))]
    else if root || negb (behind f r) then [par fn_parity_error_response_enable fn_master_data_parity_error t f]
    else []).
Proof.
  intros C T N B r. subst r. unfold br_downstream_recv. rewrite C, T. cbn [bind py_assert].
  set (g := if _ && _ then _ else f). pose proof (reports_one f fn_sec_master_data_parity_error (zbool (f_attr f fn_bridge_parity_error_response_enable) && ep t)) as R.
  fold g in R. clearbody g. assert (S : only_status [(fn_sec_master_data_parity_error, zbool (f_attr f fn_bridge_parity_error_response_enable) && ep t)]) by reflexivity.
  assert (I : f_id g = f_id f) by apply R.
  replace (type_in ty cfg_types) with (local_cfg (route_of ty t)) by (destruct ty; reflexivity).
  destruct (local_cfg (route_of ty t)) eqn:L.
  { rewrite (br_unrouted_spec Down ty t g N), I. eexists. split; [|exact R]. replace (non_posted ty) with true by (destruct ty; cbn in *; congruence). reflexivity. }
  pose proof (reports_bars f g _ 2 l _ ltac:(lia) R S B) as B'.
  replace (if root then Ok false else match_tlp 2 g t) with (@Ok bool (negb root && own f l (route_of ty t)))
    by (destruct root; [reflexivity|]; rewrite (match_tlp_spec g 2 l t ty T N B'), (reports_own _ _ _ _ _ R); reflexivity).
  cbn [bind]. destruct (negb root && own f l (route_of ty t)) eqn:O.
  - destruct (note_spec fn_sec_received_target_abort fn_sec_received_master_abort t ty g T N) as (h & E & R2). rewrite E. cbn [bind].
    exists h. split; [reflexivity|]. exact (reports_app _ _ _ [_] _ R R2).
  - rewrite (match_secondary_spec g t ty T N), (reports_behind _ _ _ _ R S). cbn [bind]. rewrite (orb_comm root). destruct (negb (behind f (route_of ty t)) || root) eqn:H.
    + unfold send_to, br_sends, fn_upstream_send. rewrite C. cbn [bind py_assert]. eexists. split; [reflexivity|].
      apply (reports_app _ _ _ [_] _ R). unfold par. rewrite (reports_attr f g _ fn_parity_error_response_enable R S) by reflexivity. apply reports_one.
    + rewrite (br_unrouted_spec Down ty t g N), I. eexists. split; [reflexivity|exact R].
Qed.
Lemma bridge_send t ty f : tlp_check t = Ok true -> fmt_type t = Ok ty -> route_of ty t <> TNone ->
  let r := route_of ty t in
  exists f', br_send t f = Ok (f', [Fwd (if behind f r then Down else Up) t]) /\
  reports f f' [(fn_signaled_target_abort, is_back r && (status t =? CA));
    if behind f r then par fn_bridge_parity_error_response_enable fn_sec_master_data_parity_error t f
    else par fn_parity_error_response_enable fn_master_data_parity_error t f].
Proof.
  intros C T N r. subst r. unfold br_send. rewrite (match_secondary_spec f t ty T N). cbn [bind]. unfold is_completion, get_fc_type. rewrite T. cbn [bind].
  assert (F : exists k, type_fc ty = Ok k /\ (match k with FC_CPL => true | _ => false end) = is_back (route_of ty t)).
  { destruct ty; cbn [route_of] in N; try congruence; eexists; (split; [reflexivity|reflexivity]). }
  destruct F as (k & -> & F2). cbn [bind]. rewrite F2.
  set (g := if _ && _ then _ else f). pose proof (reports_one f fn_signaled_target_abort (is_back (route_of ty t) && (status t =? CA))) as R. fold g in R. clearbody g.
  assert (S : only_status [(fn_signaled_target_abort, is_back (route_of ty t) && (status t =? CA))]) by reflexivity.
  unfold send_to. destruct (behind f (route_of ty t)); unfold br_sends, fn_upstream_send; rewrite C; cbn [bind py_assert]; eexists; (split; [reflexivity|]);
    apply (reports_app _ _ _ [_] _ R); unfold par.
  - rewrite (reports_attr f g _ fn_bridge_parity_error_response_enable R S) by reflexivity. apply reports_one.
  - rewrite (reports_attr f g _ fn_parity_error_response_enable R S) by reflexivity. apply reports_one.
Qed.

(** ** Functions *)
Lemma fn_recv_status t ty f : tlp_check t = Ok true -> fmt_type t = Ok ty -> (exists k, type_fc ty = Ok k) ->
  exists f', fn_upstream_recv t f = Ok f' /\
  reports f f' [(fn_received_target_abort, type_in ty cpl_types && (status t =? CA)); (fn_received_master_abort, type_in ty cpl_types && (status t =? UR));
    par fn_parity_error_response_enable fn_master_data_parity_error t f].
Proof.
  intros C T [k K]. unfold fn_upstream_recv. rewrite C. cbn [bind py_assert]. unfold is_completion, get_fc_type. rewrite T. cbn [bind]. rewrite K. cbn [bind].
  replace (match k with FC_CPL => true | _ => false end) with (type_in ty cpl_types) by (destruct ty; cbn in K; inversion K; reflexivity).
  set (g := if type_in _ _ then _ else f).
  assert (R : reports f g [(fn_received_target_abort, type_in ty cpl_types && (status t =? CA)); (fn_received_master_abort, type_in ty cpl_types && (status t =? UR))]).
  { unfold g. destruct (type_in ty cpl_types); cbn [andb]; [|apply (reports_skip _ _ _ _ (reports_skip _ _ _ _ (reports_none f)))].
    destruct (Z.eqb_spec (status t) CA) as [E|E].
    - rewrite E. change (CA =? UR) with false. exact (reports_app _ _ _ _ _ (reports_one f _ true) (reports_one _ _ false)).
    - apply reports_skip. apply (reports_one f _ (status t =? UR)). }
  clearbody g. eexists. split; [reflexivity|]. apply (reports_app _ _ _ [_; _] [_] R). unfold par.
  rewrite (reports_attr f g _ fn_parity_error_response_enable R) by reflexivity. apply reports_one.
Qed.
Lemma fn_send_status t ty f : tlp_check t = Ok true -> fmt_type t = Ok ty -> (exists k, type_fc ty = Ok k) ->
  exists f', fn_send t f = Ok f' /\
  reports f f' [(fn_signaled_target_abort, type_in ty cpl_types && (status t =? CA)); par fn_parity_error_response_enable fn_master_data_parity_error t f].
Proof.
  intros C T [k K]. unfold fn_send, is_completion, get_fc_type. rewrite T. cbn [bind]. rewrite K. cbn [bind].
  replace (match k with FC_CPL => true | _ => false end) with (type_in ty cpl_types) by (destruct ty; cbn in K; inversion K; reflexivity).
  set (g := if _ && _ then _ else f). pose proof (reports_one f fn_signaled_target_abort (type_in ty cpl_types && (status t =? CA))) as R. fold g in R. clearbody g.
  unfold fn_upstream_send. rewrite C. cbn [bind py_assert]. eexists. split; [reflexivity|]. apply (reports_app _ _ _ [_] [_] R). unfold par.
  rewrite (reports_attr f g _ fn_parity_error_response_enable R) by reflexivity. apply reports_one.
Qed.

(** ** The forms used in PropertiesRoute.v *)
Lemma windows_shown ws f : programmed f -> Forall (fun w => 0 <= snd w < 16) ws ->
  let g := fold_left (fun f w => br_write (fst (fst w)) (snd (fst w)) (snd w) f) ws f in
  bus_range g = reg_bus_range g /\ io_window g = reg_io_window g /\ mem_window g = reg_mem_window g /\ pf_window g = reg_pf_window g.
Proof.
  intros P F g. assert (Q : programmed g).
  { subst g. revert f P. induction F as [|w ws W F IH]; intros f P; [exact P|]. cbn [fold_left]. apply IH. apply programmed_write; assumption. }
  clearbody g. destruct (reg_windows g Q) as (A & B & C & D). repeat split; congruence.
Qed.
Lemma upstream_acts t ty f l : tlp_check t = Ok true -> fmt_type t = Ok ty -> route_of ty t <> TNone -> bars f 2 l (route_of ty t) ->
  exists f' acts, br_upstream_recv t f = Ok (f', acts) /\
  (own f l (route_of ty t) = true -> acts = [Own t]) /\
  (own f l (route_of ty t) = false -> behind f (route_of ty t) = true -> acts = [Fwd Down (as_seen f ty t)]) /\
  (own f l (route_of ty t) = false -> behind f (route_of ty t) = false -> non_posted ty = false -> acts = [Free t]) /\
  (own f l (route_of ty t) = false -> behind f (route_of ty t) = false -> non_posted ty = true ->
   exists c, acts = [Free t; Ans Up c] /\ is_ur c t (f_id f)).
Proof.
  intros C T N B. destruct (upstream_recv t ty f l C T N B) as (f' & E & _). eexists f', _. split; [exact E|].
  repeat split; intros; repeat match goal with H : _ = _ |- _ => match type of H with @eq bool _ _ => rewrite H end end; try reflexivity.
  eexists. split; [reflexivity|]. apply ur_spec.
Qed.
Lemma converted t ty f : fmt_type t = Ok ty -> behind f (route_of ty t) = true ->
  fmt_type (as_seen f ty t) = Ok (if bus (completer_id t) =? fst (bus_range f) then
    match ty with CFG_READ_1 => CFG_READ_0 | CFG_WRITE_1 => CFG_WRITE_0 | _ => ty end else ty) /\
  as_seen f ty t = set_type_ (type_ (as_seen f ty t)) t.
Proof.
  intros T B. unfold as_seen. destruct (bus (completer_id t) =? fst (bus_range f)); [|split; [exact T|reflexivity]].
  destruct ty; try (split; [exact T|reflexivity]).
  - destruct (type0 t CFG_READ_1 CFG_READ_0 T ltac:(left; reflexivity)) as (E & _ & G). rewrite E in G. split; [exact G|reflexivity].
  - destruct (type0 t CFG_WRITE_1 CFG_WRITE_0 T ltac:(right; reflexivity)) as (E & _ & G). rewrite E in G. split; [exact G|reflexivity].
Qed.
Lemma downstream_acts (root : bool) t ty f l : tlp_check t = Ok true -> fmt_type t = Ok ty -> route_of ty t <> TNone ->
  bars f 2 l (route_of ty t) ->
  let r := route_of ty t in
  exists f' acts, br_downstream_recv root t f = Ok (f', acts) /\
  (local_cfg r = false -> root = false -> own f l r = true -> acts = [Own t]) /\
  (local_cfg r = false -> root = true -> acts = [Fwd Up t]) /\
  (local_cfg r = false -> own f l r = false -> behind f r = false -> acts = [Fwd Up t]) /\
  (local_cfg r = false -> root = false -> own f l r = false -> behind f r = true -> non_posted ty = false -> acts = [Free t]) /\
  (local_cfg r = true \/ root = false /\ own f l r = false /\ behind f r = true /\ non_posted ty = true ->
   exists c, acts = [Free t; Ans Down c] /\ is_ur c t (f_id f)).
Proof.
  intros C T N B r. destruct (downstream_recv root t ty f l C T N B) as (f' & E & _). fold r in E. eexists f', _. split; [exact E|].
  assert (U := ur_spec t (f_id f)).
  destruct (local_cfg r), root, (own f l r), (behind f r), (non_posted ty); cbn [negb andb orb]; repeat split; intros; try discriminate; try reflexivity;
    try (eexists; split; [reflexivity|exact U]); exfalso; intuition discriminate.
Qed.
Lemma send_acts t ty f : tlp_check t = Ok true -> fmt_type t = Ok ty -> route_of ty t <> TNone ->
  exists f', br_send t f = Ok (f', [Fwd (if behind f (route_of ty t) then Down else Up) t]).
Proof. intros C T N. destruct (bridge_send t ty f C T N) as (f' & E & _). exists f'. exact E. Qed.
Lemma upstream_status t ty f l f' acts : tlp_check t = Ok true -> fmt_type t = Ok ty -> route_of ty t <> TNone ->
  bars f 2 l (route_of ty t) -> br_upstream_recv t f = Ok (f', acts) ->
  let r := route_of ty t in
  reports f f' (par fn_parity_error_response_enable fn_master_data_parity_error t f ::
    if own f l r then [(fn_received_target_abort, is_back r && (status t =? CA)); (fn_received_master_abort, is_back r && (status t =? UR))]
    else if behind f r then [par fn_bridge_parity_error_response_enable fn_sec_master_data_parity_error t f]
    else []).
Proof. intros C T N B E r. destruct (upstream_recv t ty f l C T N B) as (g & E' & R). rewrite E in E'. apply Ok_inj in E'. injection E' as <- _. exact R. Qed.
Lemma downstream_status root t ty f l f' acts : tlp_check t = Ok true -> fmt_type t = Ok ty -> route_of ty t <> TNone ->
  bars f 2 l (route_of ty t) -> br_downstream_recv root t f = Ok (f', acts) ->
  let r := route_of ty t in
  reports f f' (par fn_bridge_parity_error_response_enable fn_sec_master_data_parity_error t f ::
    if local_cfg r then []
    else if negb root && own f l r then
      [(fn_sec_received_target_abort, is_back r && (status t =? CA)); (fn_sec_received_master_abort, is_back r && (status t =? UR))]
    else if root || negb (behind f r) then [par fn_parity_error_response_enable fn_master_data_parity_error t f]
    else []).
Proof. intros C T N B E r. destruct (downstream_recv root t ty f l C T N B) as (g & E' & R). rewrite E in E'. apply Ok_inj in E'. injection E' as <- _. exact R. Qed.
Lemma send_status t ty f f' acts : tlp_check t = Ok true -> fmt_type t = Ok ty -> route_of ty t <> TNone -> br_send t f = Ok (f', acts) ->
  let r := route_of ty t in
  behind f r = false \/ status t <> CA ->
  reports f f' (if behind f r
    then [(fn_sec_signaled_target_abort, is_back r && (status t =? CA)); par fn_bridge_parity_error_response_enable fn_sec_master_data_parity_error t f]
    else [(fn_signaled_target_abort, is_back r && (status t =? CA)); par fn_parity_error_response_enable fn_master_data_parity_error t f]).
Proof.
  intros C T N E r H. destruct (bridge_send t ty f C T N) as (g & E' & R). rewrite E in E'. apply Ok_inj in E'. injection E' as <- _. fold r in R.
  destruct (behind f r); [|exact R]. destruct H as [H|H]; [discriminate|].
  replace (status t =? CA) with false in * by (symmetry; apply Z.eqb_neq; exact H). rewrite andb_false_r in *.
  destruct R as (R1 & R2 & R3 & R4 & R5). repeat (split; [assumption|]). exact R5.
Qed.
