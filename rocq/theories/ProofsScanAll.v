(** Configuration accesses in any tree are those of the function that the bus numbers lead to. *)
From Verif Require Import Base BaseProofs SpecTlp ModelUtils ModelTlp ModelAttrs ModelCapList ModelConfig ModelFunction ModelRegion ModelHost ModelRoute ModelEnum ModelTree SpecRoute SpecConfig SpecHost SpecTree
  ModelTreeUp ModelTreeCfg SpecTreeCfg ModelScan SpecScan ProofsMem ProofsUtils ProofsHost ProofsEnum ProofsTreeUpAll ProofsTreeCfgAll ProofsScan.

(** ** Finding and replacing *)
Section Place.
Context (b d f : Z).
Lemma leads_at z g br : leads b d f z = Some (g, br) -> device (f_id g) = d /\ func (f_id g) = f.
Proof.
  induction z as [g0 b0 l IH] using net_rect'. cbn [leads]. induction l as [|c r IHr]; [discriminate|]. pose proof (Forall_inv IH) as IH1; pose proof (Forall_inv_tail IH) as IH2. clear IH. destruct (b =? fst (bus_range g0)).
  - destruct (sits d f c) eqn:Si; [|exact (IHr IH2)]. intros E. injection E as <- _. unfold sits in Si. lia.
  - destruct (covers b c); [exact IH1|exact (IHr IH2)].
Qed.
Lemma covers_instead g' z : covers b (instead g' b d f z) = covers b z.
Proof. destruct z. reflexivity. Qed.
Lemma leads_instead z g br g' : leads b d f z = Some (g, br) -> device (f_id g') = d -> func (f_id g') = f -> leads b d f (instead g' b d f z) = Some (g', br).
Proof.
  intros E D F. revert E. induction z as [g0 b0 l IH] using net_rect'. cbn [leads instead]. induction l as [|c r IHr]; [discriminate|]. pose proof (Forall_inv IH) as IH1; pose proof (Forall_inv_tail IH) as IH2. clear IH. destruct (b =? fst (bus_range g0)).
  - destruct (sits d f c) eqn:Si; [|rewrite Si; exact (IHr IH2)]. destruct c as [gc bc kc]. intros E. injection E as _ <-. unfold sits. cbn [net_fn net_br]. rewrite D, F, !Z.eqb_refl. reflexivity.
  - destruct (covers b c) eqn:Cv; [rewrite covers_instead, Cv; exact IH1|rewrite Cv; exact (IHr IH2)].
Qed.
Lemma instead_twice z g1 g2 : device (f_id g1) = d -> func (f_id g1) = f -> instead g2 b d f (instead g1 b d f z) = instead g2 b d f z.
Proof.
  intros D F. induction z as [g0 b0 l IH] using net_rect'. cbn [instead]. f_equal. induction l as [|c r IHr]; [reflexivity|]. pose proof (Forall_inv IH) as IH1; pose proof (Forall_inv_tail IH) as IH2. clear IH. destruct (b =? fst (bus_range g0)).
  - destruct (sits d f c) eqn:Si; [|rewrite Si, (IHr IH2); reflexivity]. destruct c as [gc bc kc]. unfold sits. cbn [net_fn]. rewrite D, F, !Z.eqb_refl. reflexivity.
  - destruct (covers b c) eqn:Cv; [rewrite covers_instead, Cv, IH1; reflexivity|rewrite Cv, (IHr IH2); reflexivity].
Qed.
Lemma instead_same z g br : leads b d f z = Some (g, br) -> instead g b d f z = z.
Proof.
  induction z as [g0 b0 l IH] using net_rect'. cbn [leads instead]. intros E. f_equal. revert E. induction l as [|c r IHr]; [reflexivity|]. pose proof (Forall_inv IH) as IH1; pose proof (Forall_inv_tail IH) as IH2. clear IH. destruct (b =? fst (bus_range g0)).
  - destruct (sits d f c) eqn:Si; [destruct c; intros E; injection E as <- _; reflexivity|]. intros E. rewrite (IHr IH2 E). reflexivity.
  - destruct (covers b c) eqn:Cv; intros E; [rewrite (IH1 E); reflexivity|rewrite (IHr IH2 E); reflexivity].
Qed.
Lemma below_instead g' z e : In e (below (instead g' b d f z)) -> In e (below z) \/ fst e = g'.
Proof.
  revert e. induction z as [g0 b0 l IH] using net_rect'. intros e. cbn [instead below]. intros I. induction l as [|c r IHr]; [destruct I|]. pose proof (Forall_inv IH) as IH1; pose proof (Forall_inv_tail IH) as IH2. clear IH. revert I. destruct (b =? fst (bus_range g0)).
  - destruct (sits d f c); cbn [flat_map]; intros I; apply in_app_or in I; destruct I as [I|I].
    + destruct c as [gc bc kc]. cbn [net_fns] in I. destruct I as [<-|I]; [right; reflexivity|]. left. apply in_or_app. left. right. exact I.
    + left. apply in_or_app. right. exact I.
    + left. apply in_or_app. left. exact I.
    + destruct (IHr IH2 I) as [H|H]; [left; apply in_or_app; right; exact H|right; exact H].
  - destruct (covers b c); cbn [flat_map]; intros I; apply in_app_or in I; destruct I as [I|I].
    + destruct c as [gc bc kc]. cbn [instead net_fns] in I. destruct I as [<-|I]; [left; apply in_or_app; left; left; reflexivity|]. destruct (IH1 e I) as [H|H]; [left; apply in_or_app; left; right; exact H|right; exact H].
    + left. apply in_or_app. right. exact I.
    + left. apply in_or_app. left. exact I.
    + destruct (IHr IH2 I) as [H|H]; [left; apply in_or_app; right; exact H|right; exact H].
Qed.
Lemma host_instead g' z : f_id g' <> id0 -> at_host z -> at_host (instead g' b d f z).
Proof.
  intros N (f0 & l & -> & B & Aw). eexists. eexists. split; [reflexivity|]. split; [exact B|]. intros g I E. destruct (below_instead g' (Net f0 true l) (g, 2) I) as [J|J]; [exact (Aw g J E)|]. cbn [fst] in J. subst g'. contradiction.
Qed.
End Place.

(** ** One request *)
Lemma deliver_eq br tg g t : cfg_one t -> cfg_deliver (cfg_rd br) (cfg_wr br) tg g t = ('(g', c) <- cfg_answer br (set_type_ 4 (set_tag (tg (address t)) t)) g ;; Ok (g', [c])).
Proof.
  intros (_ & _ & F & _). unfold cfg_deliver, to_type0, cfg_answer. change (fmt_type (set_tag (tg (address t)) t)) with (fmt_type t). destruct F as [[F T]|[F T]]; rewrite T; cbn [bind].
  - replace (set_fmt_type CFG_READ_0 (set_tag (tg (address t)) t)) with (set_type_ 4 (set_tag (tg (address t)) t)) by (unfold set_fmt_type, set_type_, set_fmt, set_tag; cbn; rewrite F; reflexivity).
    replace (fmt_type (set_type_ 4 (set_tag (tg (address t)) t))) with (Ok CFG_READ_0) by (unfold fmt_type; cbn [fmt type_ set_type_ set_tag]; rewrite F; reflexivity). reflexivity.
  - replace (set_fmt_type CFG_WRITE_0 (set_tag (tg (address t)) t)) with (set_type_ 4 (set_tag (tg (address t)) t)) by (unfold set_fmt_type, set_type_, set_fmt, set_tag; cbn; rewrite F; reflexivity).
    replace (fmt_type (set_type_ 4 (set_tag (tg (address t)) t))) with (Ok CFG_WRITE_0) by (unfold fmt_type; cbn [fmt type_ set_type_ set_tag]; rewrite F; reflexivity). reflexivity.
Qed.
Lemma deliver_id br tg g t dev g' cs : completer_id t = dev -> at_id dev g -> cfg_deliver (cfg_rd br) (cfg_wr br) tg g t = Ok (g', cs) -> f_id g' = dev.
Proof.
  intros Co [I1 I2]. unfold cfg_deliver, to_type0. change (fmt_type (set_tag (tg (address t)) t)) with (fmt_type t). destruct (fmt_type t) as [ty|e]; [|discriminate]. cbn [bind].
  set (u := match ty with CFG_READ_1 => _ | CFG_WRITE_1 => _ | _ => _ end). assert (R : completer_id u = dev) by (subst u; rewrite <- Co; destruct ty; reflexivity). clearbody u. destruct (fmt_type u) as [tu|e]; [|discriminate]. cbn [bind].
  assert (Ta : cfg_target u g = true) by (unfold cfg_target; rewrite R, I1, I2, !Z.eqb_refl; reflexivity).
  assert (Ca : forall k, f_id k = f_id (capture u g) -> f_id k = dev) by (intros k ->; unfold capture; cbn [with_id f_id]; rewrite R, I1, I2; destruct dev; reflexivity).
  assert (S : forall c0 k k', fn_upstream_send c0 k = Ok k' -> f_id k' = f_id k).
  { intros c0 k k'. unfold fn_upstream_send. destruct (tlp_check c0) as [[|]|e]; cbn [bind py_assert]; try discriminate. intros E. injection E as <-. destruct (_ && _); reflexivity. }
  destruct tu; try discriminate.
  - unfold handle_config_0_read. rewrite Ta. cbv zeta. destruct (cfg_rd br _ _) as [[v|]|e]; try discriminate. cbn [bind]. destruct (struct_pack_le 4 v) as [dd|e]; [|discriminate]. cbn [bind]. destruct (fn_upstream_send _ _) as [k|e] eqn:Se; [|discriminate]. cbn [bind].
    intros E. injection E as <- _. apply Ca. exact (S _ _ _ Se).
  - unfold handle_config_0_write. rewrite Ta. cbv zeta. destruct (unpack_l _) as [dd|e]; [|discriminate]. cbn [bind]. destruct (fn_upstream_send _ _) as [k|e] eqn:Se; [|discriminate]. cbn [bind].
    intros E. injection E as <- _. apply Ca. rewrite (S _ _ _ Se). apply (kinds_wr_id _ _ _ (kind_in br)).
Qed.
Section Access.
Context (b d f : Z) (tg : Z -> Z).
Hypothesis Bb : 0 <= b <= 255.
Notation dev := (mkId b d f).
Hypothesis Nh : dev <> id0.
Lemma ask_one z t : at_host z -> cfg_one t -> completer_id t = dev ->
  cfg_ask tg z t = match leads b d f z with None => Ok (z, []) | Some (g, br) => '(g', cs) <- cfg_deliver (cfg_rd br) (cfg_wr br) tg g t ;; Ok (instead g' b d f z, cs) end.
Proof.
  intros (f0 & l & -> & B & Aw) O C. unfold cfg_ask. assert (O' : cfg_one (set_tag (tg (address t)) t)) by exact O.
  rewrite (ask_all b d f _ O' C Nh (Net f0 true l) true true); [|unfold covers; cbn [net_br net_fn]; rewrite B; cbn [fst snd]; lia|cbn [net_fn]; rewrite B; cbn [fst]; lia|left; reflexivity|exact Aw].
  unfold outcome. destruct (leads b d f (Net f0 true l)) as [[g br]|]; [|reflexivity]. rewrite (deliver_eq br tg g t O). destruct (cfg_answer br _ g) as [[g' c]|e]; reflexivity.
Qed.

(** ** Accesses *)
Lemma read_who addr k : completer_id (snd (set_addr_be addr k (cfg_req CFG_READ_1 dev))) = dev.
Proof. unfold set_addr_be. cbv zeta. destruct (_ =? 0); [|destruct (_ =? 1)]; reflexivity. Qed.
Lemma read_goes crs fuel : forall addr rem acc z g br, at_host z -> leads b d f z = Some (g, br) ->
  config_read_loop fuel (cfg_ask tg) crs dev addr rem acc z = ('(g', dd) <- config_read_loop fuel (cfg_deliver (cfg_rd br) (cfg_wr br) tg) crs dev addr rem acc g ;; Ok (instead g' b d f z, dd)).
Proof.
  induction fuel as [|fuel IH]; intros addr rem acc z g br H L; cbn [config_read_loop]; [cbn [bind]; rewrite (instead_same b d f z g br L); reflexivity|].
  destruct (0 <? rem); [|cbn [bind]; rewrite (instead_same b d f z g br L); reflexivity]. cbv zeta. set (k := Z.min rem (4 - addr mod 4)). fold (cfg_req CFG_READ_1 dev).
  rewrite (ask_one z _ H (read_one addr k dev) (read_who addr k)), L. set (u := snd (set_addr_be addr k (cfg_req CFG_READ_1 dev))).
  destruct (cfg_deliver (cfg_rd br) (cfg_wr br) tg g u) as [[g1 cs]|e] eqn:D; [|reflexivity]. cbn [bind]. destruct (config_read_data crs u cs) as [dd|e]; [|reflexivity]. cbn [bind].
  destruct (leads_at b d f z g br L) as [I1 I2]. pose proof (deliver_id br tg g u dev g1 cs (read_who addr k) (conj I1 I2) D) as Ei.
  assert (D1 : device (f_id g1) = d) by (rewrite Ei; reflexivity). assert (F1 : func (f_id g1) = f) by (rewrite Ei; reflexivity).
  rewrite (IH _ _ _ _ g1 br (host_instead b d f g1 z ltac:(rewrite Ei; exact Nh) H) (leads_instead b d f z g br g1 L D1 F1)).
  destruct (config_read_loop fuel _ crs dev _ _ _ g1) as [[g2 d2]|e]; [|reflexivity]. cbn [bind]. rewrite (instead_twice b d f z g1 g2 D1 F1). reflexivity.
Qed.
Lemma write_goes fuel : forall addr dat z g br, at_host z -> leads b d f z = Some (g, br) ->
  config_write_loop fuel (cfg_ask tg) dev addr dat z = (g' <- config_write_loop fuel (cfg_deliver (cfg_rd br) (cfg_wr br) tg) dev addr dat g ;; Ok (instead g' b d f z)).
Proof.
  induction fuel as [|fuel IH]; intros addr dat z g br H L; cbn [config_write_loop]; [cbn [bind]; rewrite (instead_same b d f z g br L); reflexivity|].
  destruct (0 <? zlen dat) eqn:E; [|cbn [bind]; rewrite (instead_same b d f z g br L); reflexivity]. destruct (len_spec addr (zlen dat) ltac:(lia)) as (K1 & K2 & K3). cbv zeta in *. set (k := Z.min (zlen dat) (4 - addr mod 4)) in *. clearbody k.
  assert (Sl : ModelRegion.slice 0 k dat = firstn (Z.to_nat k) dat) by (unfold ModelRegion.slice; cbn [skipn Z.to_nat]; f_equal; lia). rewrite Sl. clear Sl.
  assert (L1 : zlen (firstn (Z.to_nat k) dat) = k) by (apply zlen_firstn; lia). assert (N1 : firstn (Z.to_nat k) dat <> []) by (intros X; rewrite X in L1; cbn in L1; lia).
  fold (cfg_req CFG_WRITE_1 dev). pose proof (write_one addr _ dev N1 ltac:(lia)) as O. pose proof (proj1 (proj2 (write_req addr _ dev N1 ltac:(lia)))) as C. set (u := set_addr_be_data addr (firstn (Z.to_nat k) dat) (cfg_req CFG_WRITE_1 dev)) in *.
  rewrite (ask_one z u H O C), L. destruct (cfg_deliver (cfg_rd br) (cfg_wr br) tg g u) as [[g1 cs]|e] eqn:D; [|reflexivity]. cbn [bind].
  destruct (leads_at b d f z g br L) as [I1 I2]. pose proof (deliver_id br tg g u dev g1 cs C (conj I1 I2) D) as Ei.
  assert (D1 : device (f_id g1) = d) by (rewrite Ei; reflexivity). assert (F1 : func (f_id g1) = f) by (rewrite Ei; reflexivity).
  rewrite (IH _ _ _ g1 br (host_instead b d f g1 z ltac:(rewrite Ei; exact Nh) H) (leads_instead b d f z g br g1 L D1 F1)).
  destruct (config_write_loop fuel _ dev _ _ g1) as [g2|e]; [|reflexivity]. cbn [bind]. rewrite (instead_twice b d f z g1 g2 D1 F1). reflexivity.
Qed.
Lemma tree_reads crs addr n z g br : at_host z -> leads b d f z = Some (g, br) ->
  config_read (cfg_ask tg) crs dev addr n z = ('(g', dd) <- config_read (cfg_deliver (cfg_rd br) (cfg_wr br) tg) crs dev addr n g ;; Ok (instead g' b d f z, dd)).
Proof.
  intros H L. unfold config_read. rewrite (read_goes crs _ addr n [] z g br H L). destruct (config_read_loop _ _ crs dev addr n [] g) as [[g' dd]|e]; reflexivity.
Qed.
Lemma tree_writes addr dat z g br : at_host z -> leads b d f z = Some (g, br) ->
  config_write (cfg_ask tg) dev addr dat z = (g' <- config_write (cfg_deliver (cfg_rd br) (cfg_wr br) tg) dev addr dat g ;; Ok (instead g' b d f z)).
Proof. intros H L. unfold config_write. exact (write_goes _ addr dat z g br H L). Qed.
Lemma tree_nobody crs addr n dat z : at_host z -> leads b d f z = None -> 0 <= n ->
  config_read (cfg_ask tg) crs dev addr n z = Ok (z, repeat 0xff (Z.to_nat n)) /\ config_write (cfg_ask tg) dev addr dat z = Ok z.
Proof.
  intros Hz L Hn. assert (No : forall t, cfg_one t -> completer_id t = dev -> cfg_ask tg z t = Ok (z, [])) by (intros t O C; rewrite (ask_one z t Hz O C), L; reflexivity). split.
  - assert (G : forall fuel addr rem acc, 0 <= rem <= Z.of_nat fuel -> exists k, config_read_loop fuel (cfg_ask tg) crs dev addr rem acc z = Ok (z, acc ++ repeat 0xff k) /\ rem <= Z.of_nat k).
    { induction fuel as [|fuel IH]; intros a rem acc H.
      - exists O. cbn [config_read_loop repeat]. rewrite app_nil_r. split; [reflexivity|lia].
      - cbn [config_read_loop]. destruct (0 <? rem) eqn:E; [|exists O; cbn [repeat]; rewrite app_nil_r; split; [reflexivity|lia]].
        destruct (len_spec a rem ltac:(lia)) as (K1 & K2 & K3). cbv zeta in *. set (k := Z.min rem (4 - a mod 4)) in *. clearbody k.
        fold (cfg_req CFG_READ_1 dev). rewrite (No _ (read_one a k dev) (read_who a k)). cbn [bind config_read_data].
        destruct (IH (a + k) (rem - k) (acc ++ skipn (Z.to_nat (a mod 4)) [255; 255; 255; 255]) ltac:(lia)) as (j & -> & Lj).
        exists (Z.to_nat (4 - a mod 4) + j)%nat. split; [|lia]. rewrite repeat_app, app_assoc. do 4 f_equal.
        assert (M : a mod 4 = 0 \/ a mod 4 = 1 \/ a mod 4 = 2 \/ a mod 4 = 3) by lia. destruct M as [-> | [-> | [-> | ->]]]; reflexivity. }
    unfold config_read. destruct (G (Z.to_nat n) addr n [] ltac:(lia)) as (k & -> & Lk). cbn [bind app]. do 2 f_equal. replace k with (Z.to_nat n + (k - Z.to_nat n))%nat by lia. rewrite repeat_app, firstn_app, repeat_length.
    rewrite firstn_all2 by (rewrite repeat_length; lia). rewrite Nat.sub_diag. cbn [firstn]. apply app_nil_r.
  - unfold config_write. assert (G : forall fuel addr d, config_write_loop fuel (cfg_ask tg) dev addr d z = Ok z); [|apply G].
    induction fuel as [|fuel IH]; intros a dd; [reflexivity|]. cbn [config_write_loop]. destruct (0 <? zlen dd) eqn:E; [|reflexivity].
    destruct (len_spec a (zlen dd) ltac:(lia)) as (K1 & K2 & K3). cbv zeta in *. set (k := Z.min (zlen dd) (4 - a mod 4)) in *. clearbody k.
    assert (Sl : ModelRegion.slice 0 k dd = firstn (Z.to_nat k) dd) by (unfold ModelRegion.slice; cbn [skipn Z.to_nat]; f_equal; lia). rewrite Sl. clear Sl.
    assert (L1 : zlen (firstn (Z.to_nat k) dd) = k) by (apply zlen_firstn; lia). assert (N1 : firstn (Z.to_nat k) dd <> []) by (intros X; rewrite X in L1; cbn in L1; lia).
    fold (cfg_req CFG_WRITE_1 dev). rewrite (No _ (write_one a _ dev N1 ltac:(lia)) (proj1 (proj2 (write_req a _ dev N1 ltac:(lia))))). cbn [bind]. apply IH.
Qed.
End Access.
