(** The tree that enumeration (ModelEnum.v) is about, and the functions behind it. *)
From Verif Require Import Base BaseProofs Bits SpecTlp ModelUtils ModelTlp ModelAttrs ModelCapList ModelConfig ModelFunction ModelRegion ModelHost ModelRoute ModelPci ModelEnum ModelTree SpecRoute SpecConfig SpecHost SpecTree
  ModelTreeUp ModelTreeCfg SpecTreeCfg ModelScan SpecScan ProofsMem ProofsUtils ProofsConfigLow ProofsHost ProofsEnum ProofsTreeUpAll ProofsTreeCfgAll ProofsScan ProofsScanAll.

(** ** The same places *)
Lemma looks_at d f x g br : looks x g br -> sits d f (Net g br []) = ((h_d x =? d) && (h_f x =? f)).
Proof. intros (D & F & _). unfold sits. cbn [net_fn]. rewrite D, F. reflexivity. Qed.
Lemma shows_at d f y z : shows y z -> sits d f z = is_at d f y.
Proof. intros [x l g br l' L _]. exact (looks_at d f x g br L). Qed.
Lemma shows_covers b y z : shows y z -> covers b z = claims_bus b y.
Proof.
  intros [x l g br l' L _]. unfold covers, claims_bus. cbn [net_br net_fn hw_fn]. destruct L as (_ & _ & -> & _ & _ & _ & _ & B). destruct (is_bridge x); [|reflexivity]. destruct (B eq_refl) as [_ ->]. reflexivity.
Qed.
Definition agree (o : option (fnc * bool)) (p : option hfn) : Prop := match o, p with Some (g, br), Some x => looks x g br | None, None => True | _, _ => False end.
Lemma agrees b d f h : forall g br l, fst (bus_range g) = h_sec (hw_fn h) -> Forall2 shows (hw_below h) l -> agree (leads b d f (Net g br l)) (hw_get b d f h).
Proof.
  induction h as [x ys IH] using hw_rect'. intros g br l E S. cbn [hw_fn hw_below] in E, S. cbn [leads hw_get]. rewrite E. clear E. induction S as [|y z ys zs S1 S2 IHS]; [exact I|]. pose proof (Forall_inv IH) as IH1. pose proof (Forall_inv_tail IH) as IH2. clear IH.
  destruct (b =? h_sec x).
  - rewrite (shows_at d f y z S1). destruct (is_at d f y); [destruct S1; assumption|exact (IHS IH2)].
  - rewrite (shows_covers b y z S1). destruct (claims_bus b y) eqn:C; [|exact (IHS IH2)]. destruct S1 as [x1 l1 g1 br1 l1' L1 S1]. refine (IH1 g1 br1 l1' _ S1). cbn [hw_fn]. destruct L1 as (_ & _ & Br & _ & _ & _ & _ & B).
    unfold claims_bus in C. cbn [hw_fn] in C. destruct br1; [destruct (B eq_refl) as [_ ->]; reflexivity|rewrite <- Br in C; discriminate C].
Qed.
Lemma replaced b d f k g' h : forall g br l, fst (bus_range g) = h_sec (hw_fn h) -> Forall2 shows (hw_below h) l ->
  (forall x g0 br0, hw_get b d f h = Some x -> leads b d f (Net g br l) = Some (g0, br0) -> looks (k x) g' br0) ->
  exists l', instead g' b d f (Net g br l) = Net g br l' /\ Forall2 shows (hw_below (hw_map k b d f h)) l'.
Proof.
  induction h as [x ys IH] using hw_rect'. intros g br l E S. cbn [hw_fn hw_below] in E, S. cbn [leads hw_get hw_map instead hw_below]. rewrite E. clear E. intros H. eexists. split; [reflexivity|]. revert H. induction S as [|y z ys zs S1 S2 IHS]; [constructor|].
  pose proof (Forall_inv IH) as IH1. pose proof (Forall_inv_tail IH) as IH2. clear IH. destruct (b =? h_sec x).
  - rewrite (shows_at d f y z S1). destruct (is_at d f y).
    + intros H. constructor; [|exact S2]. destruct S1 as [x1 l1 g1 br1 l1' L1 S1]. cbn [set_fn hw_fn net_fn net_br] in *. constructor; [|exact S1]. exact (H x1 g1 br1 eq_refl eq_refl).
    + intros H. constructor; [exact S1|exact (IHS IH2 H)].
  - rewrite (shows_covers b y z S1). destruct (claims_bus b y) eqn:C.
    + intros H. constructor; [|exact S2]. destruct S1 as [x1 l1 g1 br1 l1' L1 S1]. assert (E1 : fst (bus_range g1) = h_sec (hw_fn (Hw x1 l1))).
      { cbn [hw_fn]. destruct L1 as (_ & _ & Br & _ & _ & _ & _ & B). unfold claims_bus in C. cbn [hw_fn] in C. destruct br1; [destruct (B eq_refl) as [_ ->]; reflexivity|rewrite <- Br in C; discriminate C]. }
      destruct (IH1 g1 br1 l1' E1 S1 H) as (l' & -> & S'). cbn [hw_map hw_below] in S' |- *. constructor; assumption.
    + intros H. constructor; [exact S1|exact (IHS IH2 H)].
Qed.
Lemma map_top k b d f h : hw_fn (hw_map k b d f h) = hw_fn h.
Proof. destruct h. reflexivity. Qed.

(** ** What writes keep *)
Definition fixed : list attr := [fn_vendor_id; fn_device_id; fn_header_layout; fn_multifunction_device].
Lemma wr_fixed br reg x be g a : In a fixed -> f_attr (cfg_wr br reg x be g) a = f_attr g a.
Proof.
  intros I. assert (FN : f_attr (fn_write reg x be g) a = f_attr g a).
  { unfold fn_write. repeat match goal with |- f_attr (if ?b then _ else _) _ = _ => destruct b; [unfold with_attr; cbn [f_attr]; unfold when; repeat match goal with |- context [if bit ?x ?y then _ else _] => destruct (bit x y) end;
      repeat (destruct I as [<-|I]; [reflexivity|]); destruct I|] end; reflexivity. }
  destruct br; cbn [cfg_wr]; [rewrite br_write_eq; unfold br_write_alt|unfold ep_write];
    repeat match goal with |- f_attr (if ?b then _ else _) _ = _ => destruct b; [unfold with_attr; cbn [f_attr]; unfold when; repeat match goal with |- context [if bit ?x ?y then _ else _] => destruct (bit x y) end;
      repeat (destruct I as [<-|I]; [reflexivity|]); destruct I|] end; try exact FN.
Qed.
Lemma head_byte br g : cfg_byte (cfg_rd br) g 14 = Some (Z.lor (Z.land (f_attr g fn_header_layout) 127) (Z.shiftl (Z.b2z (zbool (f_attr g fn_multifunction_device))) 7)).
Proof.
  unfold cfg_byte. change (14 / 4) with 3. change (14 mod 4) with 2. change (2 ^ (8 * 2)) with (2 ^ 16).
  assert (R : cfg_rd br g 3 = fn_read g 3) by (destruct br; reflexivity). rewrite R. unfold fn_read. cbn [Z.eqb Pos.eqb]. cbv zeta. f_equal. change 256 with (2 ^ 8). rewrite <- Z.shiftr_div_pow2, <- Z.land_ones by lia. change (Z.ones 8) with 255.
  generalize (f_attr g fn_header_layout), (zbool (f_attr g fn_multifunction_device)), (f_attr g fn_cache_line_size), (f_attr g fn_latency_timer), (f_attr g fn_bist_completion_code), (zbool (f_attr g fn_start_bist)), (zbool (f_attr g fn_bist_capable)). intros. bits.
Qed.
Lemma looks_keep x g br g' : looks x g br -> f_id g' = mkId (bus (f_id g')) (h_d x) (h_f x) -> (forall a, In a fixed -> f_attr g' a = f_attr g a) ->
  (br = true -> f_attr g' fn_pri_bus_num = f_attr g fn_pri_bus_num /\ bus_range g' = bus_range g) -> looks x g' br.
Proof.
  intros (D & F & B & R0 & I0 & R3 & T & S) E A K. assert (E0 : cfg_rd br g' 0 = cfg_rd br g 0).
  { assert (R : forall k, cfg_rd br k 0 = fn_read k 0) by (intros k; destruct br; reflexivity). rewrite !R. unfold fn_read. cbn [Z.eqb]. cbv zeta. rewrite (A fn_vendor_id), (A fn_device_id) by (cbn; auto). reflexivity. }
  split; [rewrite E; reflexivity|]. split; [rewrite E; reflexivity|]. split; [exact B|]. split; [congruence|]. split; [exact I0|].
  split; [rewrite head_byte in R3 |- *; rewrite (A fn_header_layout), (A fn_multifunction_device) by (cbn; auto); exact R3|]. split; [exact T|].
  intros Eb. destruct (K Eb) as [-> ->]. exact (S Eb).
Qed.
Lemma keeps_pri reg x be g : reg <> 6 -> f_attr (br_write reg x be g) fn_pri_bus_num = f_attr g fn_pri_bus_num.
Proof.
  intros N. rewrite br_write_eq. unfold br_write_alt, fn_write. replace (reg =? 6) with false by lia.
  repeat match goal with |- f_attr (if ?b then _ else _) _ = _ => destruct b; [unfold with_attr; cbn [f_attr]; unfold when; repeat match goal with |- context [if bit ?x ?y then _ else _] => destruct (bit x y) end; reflexivity|] end.
  reflexivity.
Qed.

(** What a function may turn into: same number, same fixed registers, same bus numbers *)
Definition steady (br : bool) (g g' : fnc) : Prop :=
  (forall a, In a fixed -> f_attr g' a = f_attr g a) /\ (br = true -> f_attr g' fn_pri_bus_num = f_attr g fn_pri_bus_num /\ bus_range g' = bus_range g).
Lemma steady_refl br g : steady br g g.
Proof. split; [reflexivity|auto]. Qed.
Lemma steady_trans br g1 g2 g3 : steady br g1 g2 -> steady br g2 g3 -> steady br g1 g3.
Proof.
  intros [A K] [A' K']. split; [intros a I; rewrite (A' a I), (A a I); reflexivity|]. intros E. destruct (K E) as [K1 K2], (K' E) as [K3 K4]. split; congruence.
Qed.
Lemma send_steady br c g g' : fn_upstream_send c g = Ok g' -> steady br g g'.
Proof.
  unfold fn_upstream_send. destruct (tlp_check c) as [[|]|e]; cbn [bind py_assert]; try discriminate. intros E. injection E as <-. destruct (_ && _); [|apply steady_refl]. split; [|auto].
  intros a I. unfold with_attr. cbn [f_attr]. repeat (destruct I as [<-|I]; [reflexivity|]). destruct I.
Qed.
Lemma answer_steady br t g g' c : (br = true -> fmt_type t = Ok CFG_WRITE_0 -> Z.shiftr (address t) 2 <> 6) -> cfg_answer br t g = Ok (g', c) -> steady br g g'.
Proof.
  intros N. unfold cfg_answer. destruct (fmt_type t) as [ty|e]; [|discriminate]. cbn [bind]. destruct ty; try discriminate.
  - unfold handle_config_0_read. destruct (cfg_target t g).
    + cbv zeta. destruct (cfg_rd br _ _) as [[v|]|e]; try discriminate. cbn [bind]. destruct (struct_pack_le 4 v) as [dd|e]; [|discriminate]. cbn [bind]. destruct (fn_upstream_send _ _) as [k|e] eqn:Se; [|discriminate]. cbn [bind]. intros E. injection E as <- _.
      exact (send_steady br _ _ _ Se).
    + cbv zeta. destruct (fn_upstream_send _ _) as [k|e] eqn:Se; [|discriminate]. cbn [bind]. intros E. injection E as <- _. exact (send_steady br _ _ _ Se).
  - unfold handle_config_0_write. destruct (cfg_target t g).
    + destruct (unpack_l _) as [dd|e]; [|discriminate]. cbn [bind]. cbv zeta. destruct (fn_upstream_send _ _) as [k|e] eqn:Se; [|discriminate]. cbn [bind]. intros E. injection E as <- _.
      refine (steady_trans br _ _ _ _ (send_steady br _ _ _ Se)). split.
      * intros a I. rewrite (wr_fixed br _ _ _ _ a I). reflexivity.
      * intros ->. cbn [cfg_wr]. rewrite keeps_pri, keeps_buses by (apply N; reflexivity). split; reflexivity.
    + cbv zeta. destruct (fn_upstream_send _ _) as [k|e] eqn:Se; [|discriminate]. cbn [bind]. intros E. injection E as <- _. exact (send_steady br _ _ _ Se).
Qed.
Lemma read_type0 tg addr k dev : fmt_type (set_type_ 4 (set_tag tg (snd (set_addr_be addr k (cfg_req CFG_READ_1 dev))))) = Ok CFG_READ_0.
Proof. unfold set_addr_be. cbv zeta. destruct (_ =? 0); [|destruct (_ =? 1)]; reflexivity. Qed.
Lemma read_steady br tg crs dev fuel : forall addr rem acc g g' dd, at_id dev g -> config_read_loop fuel (cfg_deliver (cfg_rd br) (cfg_wr br) tg) crs dev addr rem acc g = Ok (g', dd) -> steady br g g' /\ at_id dev g'.
Proof.
  induction fuel as [|fuel IH]; intros addr rem acc g g' dd A; cbn [config_read_loop]; [intros E; injection E as <- _; split; [apply steady_refl|exact A]|].
  destruct (0 <? rem); [|intros E; injection E as <- _; split; [apply steady_refl|exact A]]. cbv zeta. set (k := Z.min rem (4 - addr mod 4)). fold (cfg_req CFG_READ_1 dev). set (u := snd (set_addr_be addr k (cfg_req CFG_READ_1 dev))).
  destruct (cfg_deliver (cfg_rd br) (cfg_wr br) tg g u) as [[g1 cs]|e] eqn:D; [|discriminate]. cbn [bind]. destruct (config_read_data crs u cs) as [d1|e]; [|discriminate]. cbn [bind]. intros E.
  assert (C : completer_id u = dev) by (subst u; unfold set_addr_be; cbv zeta; destruct (_ =? 0); [|destruct (_ =? 1)]; reflexivity).
  pose proof (deliver_id br tg g u dev g1 cs C A D) as Ei. rewrite (deliver_eq br tg g u (read_one addr k dev)) in D. destruct (cfg_answer br _ g) as [[g0 c]|e] eqn:An; [|discriminate D]. cbn [bind] in D. injection D as -> _.
  assert (S1 : steady br g g1) by (refine (answer_steady br _ g g1 c _ An); intros _; subst u; rewrite read_type0; discriminate).
  assert (A1 : at_id dev g1) by (unfold at_id; rewrite Ei; split; reflexivity). destruct (IH _ _ _ g1 g' dd A1 E) as [S2 A2]. split; [exact (steady_trans br _ _ _ S1 S2)|exact A2].
Qed.
Lemma write_steady br tg dev fuel : forall addr dat g g', at_id dev g -> spared br addr (zlen dat) -> config_write_loop fuel (cfg_deliver (cfg_rd br) (cfg_wr br) tg) dev addr dat g = Ok g' -> steady br g g' /\ at_id dev g'.
Proof.
  induction fuel as [|fuel IH]; intros addr dat g g' A Sp; cbn [config_write_loop]; [intros E; injection E as <-; split; [apply steady_refl|exact A]|].
  destruct (0 <? zlen dat) eqn:E0; [|intros E; injection E as <-; split; [apply steady_refl|exact A]]. destruct (len_spec addr (zlen dat) ltac:(lia)) as (K1 & K2 & K3). cbv zeta in *. set (k := Z.min (zlen dat) (4 - addr mod 4)) in *. clearbody k.
  assert (Sl : ModelRegion.slice 0 k dat = firstn (Z.to_nat k) dat) by (unfold ModelRegion.slice; cbn [skipn Z.to_nat]; f_equal; lia). rewrite Sl. clear Sl.
  assert (L1 : zlen (firstn (Z.to_nat k) dat) = k) by (apply zlen_firstn; lia). assert (L2 : zlen (skipn (Z.to_nat k) dat) = zlen dat - k) by (unfold zlen in *; rewrite skipn_length; lia).
  assert (N1 : firstn (Z.to_nat k) dat <> []) by (intros X; rewrite X in L1; cbn in L1; lia).
  fold (cfg_req CFG_WRITE_1 dev). pose proof (write_one addr _ dev N1 ltac:(lia)) as O. destruct (write_req addr _ dev N1 ltac:(lia)) as (Ad & C & _). set (u := set_addr_be_data addr (firstn (Z.to_nat k) dat) (cfg_req CFG_WRITE_1 dev)) in *.
  destruct (cfg_deliver (cfg_rd br) (cfg_wr br) tg g u) as [[g1 cs]|e] eqn:D; [|discriminate]. cbn [bind]. intros E. pose proof (deliver_id br tg g u dev g1 cs C A D) as Ei. rewrite (deliver_eq br tg g u O) in D.
  destruct (cfg_answer br _ g) as [[g0 c]|e] eqn:An; [|discriminate D]. cbn [bind] in D. injection D as -> _.
  assert (S1 : steady br g g1).
  { refine (answer_steady br _ g g1 c _ An). intros Eb _. specialize (Sp Eb). change (address (set_type_ 4 (set_tag (tg (address u)) u))) with (address u). rewrite Z.shiftr_div_pow2 by lia. change (2 ^ 2) with 4. lia. }
  destruct (IH (addr + k) (skipn (Z.to_nat k) dat) g1 g') as [S2 A2]; [unfold at_id; rewrite Ei; split; reflexivity|intros Eb; specialize (Sp Eb); lia|exact E|]. split; [exact (steady_trans br _ _ _ S1 S2)|exact A2].
Qed.

(** ** Accesses in the picture *)
Section Picture.
Context (h : hw) (z : net) (b d f : Z) (tg : Z -> Z).
Hypothesis P : pictured h z.
Hypothesis Bb : 0 <= b <= 255.
Notation dev := (mkId b d f).
Hypothesis Nh : dev <> id0.
Lemma same_place : agree (leads b d f z) (hw_get b d f h).
Proof.
  destruct P as ((f0 & l0 & E0 & B & _) & Z0 & f1 & l & E & S). rewrite E in E0. injection E0 as <- <-. rewrite E. apply agrees; [rewrite B, Z0; reflexivity|exact S].
Qed.
Lemma same_step k g br x g' : hw_get b d f h = Some x -> leads b d f z = Some (g, br) -> looks (k x) g' br -> f_id g' <> id0 -> pictured (hw_map k b d f h) (instead g' b d f z).
Proof.
  intros Gx Lg Lk Ni. pose proof P as (Ho & Z0 & f1 & l & E & S). split; [apply host_instead; assumption|]. split; [rewrite map_top; exact Z0|]. destruct Ho as (f0 & l0 & E0 & B & _). rewrite E in E0. injection E0 as <- <-. subst z.
  destruct (replaced b d f k g' h f1 true l) as (l' & E' & S'); [rewrite B, Z0; reflexivity|exact S| |exists f1, l'; split; [exact E'|exact S']].
  intros x0 g0 br0 G0 L0. rewrite Gx in G0. injection G0 as <-. rewrite Lg in L0. injection L0 as _ <-. exact Lk.
Qed.
Lemma map_same x : hw_get b d f h = Some x -> forall y, hw_map (fun _ => x) b d f h = y -> y = h.
Proof.
  clear P. revert x. induction h as [x0 l IH] using hw_rect'. intros x G y <-. cbn [hw_get hw_map] in *. f_equal. revert G. induction l as [|c r IHr]; [reflexivity|]. pose proof (Forall_inv IH) as IH1. pose proof (Forall_inv_tail IH) as IH2. clear IH. destruct (b =? h_sec x0).
  - destruct (is_at d f c); [intros E; injection E as <-; destruct c; reflexivity|]. intros E. rewrite (IHr IH2 E). reflexivity.
  - destruct (claims_bus b c); intros E; [rewrite (IH1 x E _ eq_refl); reflexivity|rewrite (IHr IH2 E); reflexivity].
Qed.
Lemma same_kept g br x g' : hw_get b d f h = Some x -> leads b d f z = Some (g, br) -> steady br g g' -> at_id dev g' -> (g' = g \/ f_id g' = dev) -> pictured h (instead g' b d f z).
Proof.
  intros Gx Lg [A K] [I1 I2] W. pose proof same_place as Sp. rewrite Gx, Lg in Sp. cbn [agree] in Sp. destruct W as [-> | W]; [rewrite (instead_same b d f z g br Lg); exact P|].
  rewrite <- (map_same x Gx _ eq_refl). apply (same_step _ g br x g' Gx Lg); [|rewrite W; exact Nh]. apply (looks_keep x g br g' Sp); [|exact A|exact K].
  destruct (leads_at b d f z g br Lg) as [J1 J2]. destruct Sp as (D & F & _). rewrite W. cbn [bus]. congruence.
Qed.
Lemma loop_id_r br crs fuel : forall addr rem acc g g' dd, at_id dev g -> config_read_loop fuel (cfg_deliver (cfg_rd br) (cfg_wr br) tg) crs dev addr rem acc g = Ok (g', dd) -> g' = g \/ f_id g' = dev.
Proof.
  induction fuel as [|fuel IH]; intros addr rem acc g g' dd A; cbn [config_read_loop]; [intros E; injection E as <- _; auto|]. destruct (0 <? rem); [|intros E; injection E as <- _; auto]. cbv zeta. fold (cfg_req CFG_READ_1 dev).
  set (u := snd (set_addr_be addr (Z.min rem (4 - addr mod 4)) (cfg_req CFG_READ_1 dev))). destruct (cfg_deliver (cfg_rd br) (cfg_wr br) tg g u) as [[g1 cs]|e] eqn:D; [|discriminate]. cbn [bind]. destruct (config_read_data crs u cs) as [d1|e]; [|discriminate].
  cbn [bind]. intros E. pose proof (deliver_id br tg g u dev g1 cs (read_who b d f addr _) A D) as Ei. assert (A1 : at_id dev g1) by (unfold at_id; rewrite Ei; split; reflexivity). right. destruct (IH _ _ _ g1 g' dd A1 E) as [-> | W]; [exact Ei|exact W].
Qed.
Lemma loop_id_w br fuel : forall addr dat g g', at_id dev g -> config_write_loop fuel (cfg_deliver (cfg_rd br) (cfg_wr br) tg) dev addr dat g = Ok g' -> g' = g \/ f_id g' = dev.
Proof.
  induction fuel as [|fuel IH]; intros addr dat g g' A; cbn [config_write_loop]; [intros E; injection E as <-; auto|]. destruct (0 <? zlen dat) eqn:E0; [|intros E; injection E as <-; auto].
  destruct (len_spec addr (zlen dat) ltac:(lia)) as (K1 & K2 & K3). cbv zeta in *. set (k := Z.min (zlen dat) (4 - addr mod 4)) in *. clearbody k.
  assert (Sl : ModelRegion.slice 0 k dat = firstn (Z.to_nat k) dat) by (unfold ModelRegion.slice; cbn [skipn Z.to_nat]; f_equal; lia). rewrite Sl. clear Sl.
  assert (L1 : zlen (firstn (Z.to_nat k) dat) = k) by (apply zlen_firstn; lia). assert (N1 : firstn (Z.to_nat k) dat <> []) by (intros X; rewrite X in L1; cbn in L1; lia).
  fold (cfg_req CFG_WRITE_1 dev). pose proof (proj1 (proj2 (write_req addr _ dev N1 ltac:(lia)))) as C. set (u := set_addr_be_data addr (firstn (Z.to_nat k) dat) (cfg_req CFG_WRITE_1 dev)) in *.
  destruct (cfg_deliver (cfg_rd br) (cfg_wr br) tg g u) as [[g1 cs]|e] eqn:D; [|discriminate]. cbn [bind]. intros E. pose proof (deliver_id br tg g u dev g1 cs C A D) as Ei. assert (A1 : at_id dev g1) by (unfold at_id; rewrite Ei; split; reflexivity).
  right. destruct (IH _ _ g1 g' A1 E) as [-> | W]; [exact Ei|exact W].
Qed.
(** Whatever is read, and whatever is written elsewhere than to the bus numbers of a bridge: the picture stays. *)
Lemma picture_read crs addr n z' dd : 0 <= n -> config_read (cfg_ask tg) crs dev addr n z = Ok (z', dd) -> pictured h z'.
Proof.
  intros Hn E. pose proof same_place as Sp. destruct (leads b d f z) as [[g br]|] eqn:L; destruct (hw_get b d f h) as [x|] eqn:G; cbn [agree] in Sp; try contradiction.
  - rewrite (tree_reads b d f tg Bb Nh crs addr n z g br (proj1 P) L) in E. unfold config_read in E. destruct (config_read_loop _ _ crs dev addr n [] g) as [[g' d0]|e] eqn:El; [|discriminate E]. cbn [bind] in E. injection E as <- _.
    pose proof (leads_at b d f z g br L) as A. destruct (read_steady br tg crs dev _ addr n [] g g' d0 A El) as [S1 A1]. exact (same_kept g br x g' G L S1 A1 (loop_id_r br crs _ addr n [] g g' d0 A El)).
  - rewrite (proj1 (tree_nobody b d f tg Bb Nh crs addr n [] z (proj1 P) L Hn)) in E. injection E as <- _. exact P.
Qed.
Lemma picture_write addr dat z' : (forall x, hw_get b d f h = Some x -> spared (is_bridge x) addr (zlen dat)) -> config_write (cfg_ask tg) dev addr dat z = Ok z' -> pictured h z'.
Proof.
  intros Sr E. pose proof same_place as Sp. destruct (leads b d f z) as [[g br]|] eqn:L; destruct (hw_get b d f h) as [x|] eqn:G; cbn [agree] in Sp; try contradiction.
  - rewrite (tree_writes b d f tg Bb Nh addr dat z g br (proj1 P) L) in E. unfold config_write in E. destruct (config_write_loop _ _ dev addr dat g) as [g'|e] eqn:El; [|discriminate E]. cbn [bind] in E. injection E as <-.
    pose proof (leads_at b d f z g br L) as A. specialize (Sr x eq_refl). destruct Sp as (_ & _ & Eb & _). rewrite <- Eb in Sr. destruct (write_steady br tg dev _ addr dat g g' A Sr El) as [S1 A1].
    exact (same_kept g br x g' G L S1 A1 (loop_id_w br _ addr dat g g' A El)).
  - rewrite (proj2 (tree_nobody b d f tg Bb Nh None addr 0 dat z (proj1 P) L ltac:(lia))) in E. injection E as <-. exact P.
Qed.
End Picture.
