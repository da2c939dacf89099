From Verif Require Import Base BaseProofs Bits ModelUtils ModelTlp ModelAttrs ModelCaps ModelCapList ModelConfig ModelFunction ModelRoute
  SpecRegs SpecConfig SpecBar SpecRoute ProofsUtils ProofsTlp ProofsMem ProofsRegs ProofsCapFn ProofsConfigLow ProofsBar.

(** ** Windows in registers *)
Lemma base_shape x n w : 0 <= n <= w -> 0 <= x < 2 ^ w -> x mod 2 ^ n = 0 -> exists k, 0 <= k < 2 ^ (w - n) /\ x = Z.shiftl k n.
Proof.
  intros Hn H M. pose proof (pow_split n w Hn) as P. exists (x / 2 ^ n). pose proof (Z.div_mod x (2 ^ n) ltac:(lia)) as D. rewrite M in D.
  rewrite Z.shiftl_mul_pow2 by lia. split; [|lia]. split; [apply Z.div_pos; lia|]. apply Z.div_lt_upper_bound; lia.
Qed.
Lemma limit_shape x n w : 0 <= n <= w -> 0 <= x < 2 ^ w -> x mod 2 ^ n = 2 ^ n - 1 -> exists k, 0 <= k < 2 ^ (w - n) /\ x = Z.lor (Z.shiftl k n) (Z.ones n).
Proof.
  intros Hn H M. pose proof (pow_split n w Hn) as P. exists (x / 2 ^ n). pose proof (Z.div_mod x (2 ^ n) ltac:(lia)) as D. rewrite M in D.
  rewrite Z.ones_equiv, lor_disjoint_add by lia. split; [|lia]. split; [apply Z.div_pos; lia|]. apply Z.div_lt_upper_bound; lia.
Qed.
Lemma mod_land x n m : 0 <= n -> m = Z.ones n -> x mod 2 ^ n = Z.land x m.
Proof. intros H ->. rewrite Z.land_ones by lia. reflexivity. Qed.

Lemma base12 x : 0 <= x < 2 ^ 32 -> x mod 2 ^ 12 = 0 -> exists k, 0 <= k < 2 ^ 20 /\ x = Z.shiftl k 12.
Proof. apply (base_shape x 12 32); lia. Qed.
Lemma base20 x : 0 <= x < 2 ^ 32 -> x mod 2 ^ 20 = 0 -> exists k, 0 <= k < 2 ^ 12 /\ x = Z.shiftl k 20.
Proof. apply (base_shape x 20 32); lia. Qed.
Lemma base20w x : 0 <= x < 2 ^ 64 -> x mod 2 ^ 20 = 0 -> exists k, 0 <= k < 2 ^ 44 /\ x = Z.shiftl k 20.
Proof. apply (base_shape x 20 64); lia. Qed.
Lemma limit12 x : 0 <= x < 2 ^ 32 -> x mod 2 ^ 12 = 0xfff -> exists k, 0 <= k < 2 ^ 20 /\ x = Z.lor (Z.shiftl k 12) 0xfff.
Proof. apply (limit_shape x 12 32); lia. Qed.
Lemma limit20 x : 0 <= x < 2 ^ 32 -> x mod 2 ^ 20 = 0xfffff -> exists k, 0 <= k < 2 ^ 12 /\ x = Z.lor (Z.shiftl k 20) 0xfffff.
Proof. apply (limit_shape x 20 32); lia. Qed.
Lemma limit20w x : 0 <= x < 2 ^ 64 -> x mod 2 ^ 20 = 0xfffff -> exists k, 0 <= k < 2 ^ 44 /\ x = Z.lor (Z.shiftl k 20) 0xfffff.
Proof. apply (limit_shape x 20 64); lia. Qed.
Ltac shapes P :=
  destruct P as (?Hsec & ?Hsub & [?Rib ?Mib] & [?Ril ?Mil] & [?Rmb ?Mmb] & [?Rml ?Mml] & [?Rpb ?Mpb] & [?Rpl ?Mpl]);
  destruct (base12 _ Rib Mib) as (?kib & ?Kib & ?Eib);
  destruct (limit12 _ Ril Mil) as (?kil & ?Kil & ?Eil);
  destruct (base20 _ Rmb Mmb) as (?kmb & ?Kmb & ?Emb);
  destruct (limit20 _ Rml Mml) as (?kml & ?Kml & ?Eml);
  destruct (base20w _ Rpb Mpb) as (?kpb & ?Kpb & ?Epb);
  destruct (limit20w _ Rpl Mpl) as (?kpl & ?Kpl & ?Epl).

Lemma reg_windows f : programmed f ->
  reg_bus_range f = bus_range f /\ reg_io_window f = io_window f /\ reg_mem_window f = mem_window f /\ reg_pf_window f = pf_window f.
Proof.
  intros P. unfold programmed in P. cbv zeta in P. shapes P.
  unfold reg_bus_range, reg_io_window, reg_mem_window, reg_pf_window, bus_range, io_window, mem_window, pf_window, reg_of.
  cbn [br_read Z.eqb Pos.eqb]. rewrite ?Eib, ?Eil, ?Emb, ?Eml, ?Epb, ?Epl. rewrite !slice_land by (clear; lia).
  change (Z.ones 4) with 15; change (Z.ones 8) with 255; change (Z.ones 12) with 0xfff; change (Z.ones 16) with 0xffff.
  split; [|split; [|split]]; f_equal; try (bits); match goal with
  | |- ?a * 2 ^ 12 + ?b * 2 ^ 16 = Z.shiftl kib 12 =>
      replace a with (Z.land kib (Z.ones 4)) by (change (Z.ones 4) with 15; bits); replace b with (Z.shiftr kib 4) by bits
  | |- ?a * 2 ^ 12 + 0xfff + ?b * 2 ^ 16 = _ =>
      replace a with (Z.land kil (Z.ones 4)) by (change (Z.ones 4) with 15; bits); replace b with (Z.shiftr kil 4) by bits
  | |- ?a * 2 ^ 20 = _ => replace a with kmb by bits
  | |- ?a * 2 ^ 20 + 0xfffff = _ => replace a with kml by bits
  | |- ?a * 2 ^ 20 + ?b * 2 ^ 32 = _ =>
      replace a with (Z.land kpb (Z.ones 12)) by (change (Z.ones 12) with 4095; bits); replace b with (Z.shiftr kpb 12) by bits
  | |- ?a * 2 ^ 20 + 0xfffff + ?b * 2 ^ 32 = _ =>
      replace a with (Z.land kpl (Z.ones 12)) by (change (Z.ones 12) with 4095; bits); replace b with (Z.shiftr kpl 12) by bits
  end; rewrite ?Z.land_ones, ?Z.shiftr_div_pow2, ?lor_disjoint_add, ?Z.shiftl_mul_pow2 by (clear; lia); clear; lia.
Qed.

Lemma fn_attr_kept a : In a [fn_sec_bus_num; fn_sub_bus_num; fn_io_base; fn_io_limit; fn_mem_base; fn_mem_limit; fn_prefetchable_mem_base; fn_prefetchable_mem_limit] ->
  forall reg d be f, f_attr (fn_write reg d be f) a = f_attr f a.
Proof.
  intros H reg d be f. unfold fn_write. destruct (reg =? 1); [|destruct (reg =? 3); [|destruct (reg =? 15)]].
  1-3: cbn [In] in H; repeat (destruct H as [<-|H]; [cbn [with_attr f_attr]; keep_attr|]); destruct H.
  destruct (_ && _); [reflexivity|]. destruct (_ && _); reflexivity.
Qed.
Lemma programmed_eq f g : (forall a, In a [fn_sec_bus_num; fn_sub_bus_num; fn_io_base; fn_io_limit; fn_mem_base; fn_mem_limit; fn_prefetchable_mem_base; fn_prefetchable_mem_limit] ->
  f_attr g a = f_attr f a) -> programmed f -> programmed g.
Proof. intros H P. unfold programmed. rewrite !H by (cbn; tauto). exact P. Qed.
Lemma when_attr (b : bool) (s1 s : attrs) a : when b s1 s a = if b then s1 a else s a.
Proof. destruct b; reflexivity. Qed.
Lemma programmed_write reg d be f : 0 <= be < 16 -> programmed f -> programmed (br_write reg d be f).
Proof.
  intros Hbe P. rewrite br_write_eq. unfold br_write_alt.
  repeat match goal with |- context [if reg =? ?k then _ else _] => destruct (Z.eqb_spec reg k);
    [subst reg; cbn [Z.eqb Pos.eqb];
     try (apply (programmed_eq f); [intros a H; cbn [In] in H; repeat (destruct H as [<-|H]; [cbn [with_attr f_attr]; keep_attr; fail|]); solve [destruct H]|exact P])|] end.
  8: { apply (programmed_eq f); [intros a H; apply fn_attr_kept; exact H|exact P]. }
  all: unfold programmed in *; cbv zeta in P; shapes P; clear Mib Mil Mmb Mml Mpb Mpl;
    cbv [with_attr f_attr aset aclear when fn_sec_bus_num fn_sub_bus_num fn_io_base fn_io_limit fn_mem_base fn_mem_limit fn_prefetchable_mem_base fn_prefetchable_mem_limit fn_pri_bus_num
       fn_sec_master_data_parity_error fn_sec_signaled_target_abort fn_sec_received_target_abort fn_sec_received_master_abort fn_sec_received_system_error
       fn_sec_detected_parity_error Pos.eqb] in *; destruct f as [s ? ? ? ?]; 
       rewrite ?Eib, ?Eil, ?Emb, ?Eml, ?Epb, ?Epl in *; rewrite ?(mod_land _ 12 0xfff), ?(mod_land _ 20 0xfffff) by first [reflexivity|clear; lia].
  all: repeat match goal with |- context [byte_mask_update ?o ?m ?n ?b] => first [rewrite (bmu_em4 o m n b) by first [lia | bits] | rewrite (bmu_em8 o m n b) by first [lia | bits]] end; unfold em8, em4.
  all: repeat match goal with |- context [if bit ?b ?k then _ else _] => destruct (bit b k) end.
  all: repeat match goal with |- _ /\ (_ < _) => fail 1 | |- _ /\ _ => split end; try assumption; bits.
Qed.

(** ** Matching *)
Lemma hits_true a io w : hits a io w = true <-> of_kind io w /\ in_window a w.
Proof.
  destruct w as [[[i k] n] base]. cbn [hits of_kind in_window]. rewrite !andb_true_iff, Bool.eqb_true_iff, Z.leb_le, Z.ltb_lt. tauto.
Qed.
Lemma match_bar_spec f n l io a : bars f n l (TAddr io a) ->
  exists x, match_bar n a io (f_attr f) = Ok x /\ (match x with Some _ => true | None => false end) = existsb (hits a io) (windows 0 l).
Proof.
  intros (L & T & A & S & R). pose proof (decode n a io (f_attr f) l L T A S R) as D.
  destruct (match_bar n a io (f_attr f)) as [[[i o]|]|e]; [| |destruct D].
  - exists (Some (i, o)). split; [reflexivity|]. symmetry. apply existsb_exists. destruct D as (k & m & base & I & K & W & _).
    exists (i, k, m, base). split; [exact I|]. apply hits_true. split; assumption.
  - exists None. split; [reflexivity|]. symmetry. apply not_true_iff_false. intros E. apply existsb_exists in E. destruct E as (w & I & H).
    apply hits_true in H. exact (D w I (proj1 H) (proj2 H)).
Qed.
Lemma match_tlp_spec f n l t ty : fmt_type t = Ok ty -> route_of ty t <> TNone -> bars f n l (route_of ty t) ->
  match_tlp n f t = Ok (own f l (route_of ty t)).
Proof.
  intros T N B. unfold match_tlp. rewrite T. cbn [bind].
  destruct ty; cbn [route_of] in *; try congruence; cbn [own]; try reflexivity;
    (destruct (match_bar_spec f n l _ _ B) as (x & E & H); rewrite E; cbn [bind]; rewrite <- H; reflexivity).
Qed.
Lemma match_secondary_spec f t ty : fmt_type t = Ok ty -> route_of ty t <> TNone -> match_secondary f t = Ok (behind f (route_of ty t)).
Proof.
  intros T N. unfold match_secondary. rewrite T. cbn [bind]. destruct ty; cbn [route_of] in *; try congruence; reflexivity.
Qed.

(** ** Status bits *)
Lemma reports_none f : reports f f [].
Proof. repeat split. Qed.
Lemma reports_one f a (b : bool) : reports f (if b then with_attr (aset a 1) f else f) [(a, b)].
Proof.
  destruct b; (split; [reflexivity|split; [reflexivity|split; [reflexivity|split; [reflexivity|]]]]); intros x; unfold raised; cbn [existsb fst snd andb orb];
    [cbn [with_attr f_attr]; unfold aset; rewrite orb_false_r; reflexivity|reflexivity].
Qed.
Lemma reports_app f g h l m : reports f g l -> reports g h m -> reports f h (l ++ m).
Proof.
  intros (A1 & B1 & C1 & D1 & E1) (A2 & B2 & C2 & D2 & E2). repeat (split; [congruence|]). intros a. rewrite E2, E1.
  replace (raised (l ++ m) a) with (raised l a || raised m a) by (symmetry; apply existsb_app).
  destruct (raised m a), (raised l a); reflexivity.
Qed.
Lemma reports_skip f g a l : reports f g l -> reports f g ((a, false) :: l).
Proof. intros (A & B & C & D & E). repeat (split; [assumption|]). exact E. Qed.
Definition status_attrs : list attr :=
  [fn_master_data_parity_error; fn_sec_master_data_parity_error; fn_received_target_abort; fn_received_master_abort;
   fn_sec_received_target_abort; fn_sec_received_master_abort; fn_signaled_target_abort].
Lemma reports_attr f g l a : reports f g l -> forallb (fun p => existsb (Pos.eqb (fst p)) status_attrs) l = true -> existsb (Pos.eqb a) status_attrs = false ->
  f_attr g a = f_attr f a.
Proof.
  intros (_ & _ & _ & _ & E) S N. rewrite E. replace (raised l a) with false; [reflexivity|]. symmetry. apply not_true_iff_false. intros X.
  apply existsb_exists in X. destruct X as (p & I & H). apply andb_true_iff in H. destruct H as [_ H]. apply Pos.eqb_eq in H. subst a.
  rewrite forallb_forall in S. rewrite (S p I) in N. discriminate N.
Qed.
Lemma laid_out_ext s s' : forall l i, (forall j, i <= j < i + total_slots l -> s' (fn_bar j) = s (fn_bar j) /\ s' (fn_bar_mask j) = s (fn_bar_mask j)) ->
  laid_out s i l -> laid_out s' i l.
Proof.
  induction l as [|e l IH]; intros i H; [trivial|]. change (total_slots (e :: l)) with (entry_slots e + total_slots l) in H.
  pose proof (entry_pos e) as Pe. pose proof (slots_nonneg l) as Pl. destruct e as [[[k n] base]|]; cbn [laid_out entry_slots] in *.
  - intros [B L]. split; [|apply IH; [intros j Hj; apply H; unfold slots in *; destruct (is_wide k); lia|exact L]].
    destruct B as (S & B & X). split; [exact S|]. split; [exact B|]. unfold slots in H. destruct (is_wide k).
    + destruct (H i ltac:(lia)) as [-> ->]. destruct (H (i + 1) ltac:(lia)) as [-> ->]. exact X.
    + destruct (H i ltac:(lia)) as [-> ->]. exact X.
  - intros (A & B & L). destruct (H i ltac:(lia)) as [-> ->]. split; [exact A|]. split; [exact B|]. apply IH; [intros j Hj; apply H; lia|exact L].
Qed.
Lemma plain_bar j : 0 <= j < 6 -> existsb (Pos.eqb (fn_bar j)) status_attrs = false /\ existsb (Pos.eqb (fn_bar_mask j)) status_attrs = false.
Proof. intros H. bars6 j H; split; reflexivity. Qed.
Definition only_status (l : list (attr * bool)) : Prop := forallb (fun p => existsb (Pos.eqb (fst p)) status_attrs) l = true.
Lemma reports_bars f g m n l r : n <= 6 -> reports f g m -> only_status m -> bars f n l r -> bars g n l r.
Proof.
  intros Hn R S (L & T & X). split; [|split; assumption]. apply (laid_out_ext (f_attr f)); [|exact L]. intros j Hj. destruct (plain_bar j ltac:(lia)) as [P1 P2].
  split; eapply reports_attr; eassumption.
Qed.
Lemma reports_own f g m l r : reports f g m -> own g l r = own f l r.
Proof. intros (I & _). unfold own. destruct r; rewrite ?I; reflexivity. Qed.
Lemma reports_behind f g m r : reports f g m -> only_status m -> behind g r = behind f r.
Proof.
  intros R S. unfold behind, bus_behind, io_window, mem_window, pf_window, bus_range.
  rewrite !(reports_attr f g m) by (first [exact R | exact S | reflexivity]). reflexivity.
Qed.

(** ** Bridges *)
Lemma ur_check t cid : tlp_check (create_ur_completion t cid) = Ok true.
Proof. reflexivity. Qed.
Lemma ur_spec t cid : is_ur (create_ur_completion t cid) t cid.
Proof. repeat split. Qed.
Lemma unrouted_spec ty t cid : route_of ty t <> TNone ->
  unrouted ty cid t = Ok (if non_posted ty then Some (create_ur_completion t cid) else None).
Proof. intros N. destruct ty; cbn [route_of] in N; try congruence; reflexivity. Qed.
Lemma br_unrouted_spec d ty t f : route_of ty t <> TNone ->
  br_unrouted d ty t f = Ok (f, if non_posted ty then [Free t; Ans d (create_ur_completion t (f_id f))] else [Free t]).
Proof.
  intros N. unfold br_unrouted. rewrite unrouted_spec by exact N. cbn [bind]. destruct (non_posted ty); [|reflexivity].
  destruct d; cbn [br_sends]; [unfold fn_upstream_send|]; rewrite ur_check; cbn [bind py_assert]; change (ep (create_ur_completion t (f_id f))) with false;
    rewrite andb_false_r; reflexivity.
Qed.
Lemma type0 t ty ty' : fmt_type t = Ok ty -> (ty, ty') = (CFG_READ_1, CFG_READ_0) \/ (ty, ty') = (CFG_WRITE_1, CFG_WRITE_0) ->
  set_fmt_type ty' t = set_type_ 4 t /\ tlp_check (set_fmt_type ty' t) = tlp_check t /\ fmt_type (set_fmt_type ty' t) = Ok ty'.
Proof.
  intros T H. split; [|split; [|apply fmt_type_set]].
  - apply fmt_type_iff in T. destruct H as [H|H]; injection H as -> ->; cbn in T; injection T as E1 E2; unfold set_fmt_type; destruct t; cbn in *; subst; reflexivity.
  - unfold tlp_check. rewrite fmt_type_set, T. apply fmt_type_iff in T. destruct H as [H|H]; injection H as -> ->; cbn in T; injection T as E1 E2;
      unfold set_fmt_type; cbn [type_code fst snd fmt set_fmt set_type_ tlen data bind]; rewrite <- E1; reflexivity.
Qed.
Lemma as_seen_spec f t ty : fmt_type t = Ok ty ->
  (if bus (completer_id t) =? f_attr f fn_sec_bus_num then match ty with CFG_READ_1 => set_fmt_type CFG_READ_0 t | CFG_WRITE_1 => set_fmt_type CFG_WRITE_0 t | _ => t end else t)
    = as_seen f ty t /\ tlp_check (as_seen f ty t) = tlp_check t /\ ep (as_seen f ty t) = ep t.
Proof.
  intros T. unfold as_seen. cbn [bus_range fst]. destruct (bus (completer_id t) =? _); [|auto]. destruct ty; auto;
    (match goal with |- set_fmt_type ?x t = _ /\ _ => destruct (type0 t _ x T ltac:(auto)) as (E & C & _) end; rewrite <- E; auto).
Qed.
Lemma upstream_recv t ty f l : tlp_check t = Ok true -> fmt_type t = Ok ty -> route_of ty t <> TNone -> bars f 2 l (route_of ty t) ->
  exists f', br_upstream_recv t f = Ok (f',
    if own f l (route_of ty t) then [Own t]
    else if behind f (route_of ty t) then [Fwd Down (as_seen f ty t)]
    else if non_posted ty then [Free t; Ans Up (create_ur_completion t (f_id f))] else [Free t]) /\
  reports f f' (par fn_parity_error_response_enable fn_master_data_parity_error t f ::
    if own f l (route_of ty t) then
      let c := match route_of ty t with TBack _ => true | _ => false end in
      [(fn_received_target_abort, c && (status t =? CA)); (fn_received_master_abort, c && (status t =? UR))]
    else if behind f (route_of ty t) then [par fn_bridge_parity_error_response_enable fn_sec_master_data_parity_error t f]
    else []).
Proof.
  intros C T N B. unfold br_upstream_recv. rewrite C. cbn [bind py_assert].
  set (g := if _ && _ then _ else f). pose proof (reports_one f fn_master_data_parity_error (zbool (f_attr f fn_parity_error_response_enable) && ep t)) as R.
  fold g in R. clearbody g. assert (S : only_status [(fn_master_data_parity_error, zbool (f_attr f fn_parity_error_response_enable) && ep t)]) by reflexivity.
  pose proof (reports_bars f g _ 2 l _ ltac:(lia) R S B) as B'. rewrite (match_tlp_spec g 2 l t ty T N B'), (reports_own _ _ _ _ _ R). cbn [bind].
  destruct (own f l (route_of ty t)) eqn:O.
  - unfold note_status, is_completion, get_fc_type. rewrite T. cbn [bind].
    assert (F : exists c, type_fc ty = Ok c /\ (match c with FC_CPL => true | _ => false end) = match route_of ty t with TBack _ => true | _ => false end).
    { destruct ty; cbn [route_of] in N; try congruence; eexists; (split; [reflexivity|reflexivity]). }
    destruct F as (c & -> & F2). cbn [bind]. rewrite F2. eexists. split; [reflexivity|]. apply (reports_app _ _ _ [_] _ R). cbv zeta.
    destruct (match route_of ty t with TBack _ => true | _ => false end); cbn [andb]; [|apply (reports_skip _ _ _ _ (reports_skip _ _ _ _ (reports_none g)))].
    destruct (Z.eqb_spec (status t) CA) as [E|E].
    + rewrite E. change (CA =? UR) with false. exact (reports_app _ _ _ _ _ (reports_one g fn_received_target_abort true) (reports_one _ fn_received_master_abort false)).
    + apply reports_skip. apply (reports_one g _ (status t =? UR)).
  - rewrite (match_secondary_spec g t ty T N), (reports_behind _ _ _ _ R S), T. cbn [bind]. destruct (behind f (route_of ty t)) eqn:H.
    + destruct (as_seen_spec g t ty T) as (E1 & E2 & E3). rewrite E1. assert (E4 : as_seen g ty t = as_seen f ty t).
      { unfold as_seen, bus_range. cbn [fst]. rewrite (reports_attr f g _ _ R S) by reflexivity. reflexivity. }
      rewrite E4 in *. unfold send_to, br_sends. rewrite E2, C, E3. cbn [bind py_assert]. eexists. split; [reflexivity|].
      apply (reports_app _ _ _ [_] _ R). unfold par. rewrite (reports_attr f g _ fn_bridge_parity_error_response_enable R S) by reflexivity. apply reports_one.
    + rewrite (br_unrouted_spec Up ty t g N). eexists. split; [|exact R]. do 2 f_equal. destruct R as (-> & _). reflexivity.
Qed.
