(** Configuration writes of the host in an enumerated tree: one bus in its place, and what is written. *)
From Verif Require Import Base BaseProofs Bits SpecTlp ModelUtils ModelTlp ModelAttrs ModelCapList ModelConfig ModelFunction ModelRegion ModelHost ModelPci ModelRoute ModelEnum ModelAssign ModelTree SpecRoute SpecConfig SpecHost SpecAssign SpecTree
  ModelTreeUp ModelTreeCfg SpecTreeCfg ModelScan SpecScan ModelEnumCfg ModelAssignCfg ProofsMem ProofsUtils ProofsHost ProofsEnum ProofsAssignFacts ProofsTreeUpAll ProofsTreeCfgAll ProofsScan ProofsScanAll.

(** ** A bus in its place *)
(** [leads] and [instead] for the functions [zs] on bus [n] *)
Definition lin (n b d f : Z) : list net -> option (fnc * bool) :=
  fix go (l : list net) : option (fnc * bool) :=
    match l with
    | [] => None
    | c :: r => if b =? n then if sits d f c then Some (net_fn c, net_br c) else go r else if covers b c then leads b d f c else go r
    end.
Definition iin (g' : fnc) (n b d f : Z) : list net -> list net :=
  fix go (l : list net) : list net :=
    match l with
    | [] => []
    | c :: r => if b =? n then if sits d f c then match c with Net _ br k => Net g' br k end :: r else c :: go r else if covers b c then instead g' b d f c :: r else c :: go r
    end.
Lemma leads_lin b d f g br l : leads b d f (Net g br l) = lin (fst (bus_range g)) b d f l.
Proof. reflexivity. Qed.
Lemma instead_iin g' b d f g br l : instead g' b d f (Net g br l) = Net g br (iin g' (fst (bus_range g)) b d f l).
Proof. reflexivity. Qed.
(** No function is 0:0.0. *)
Definition calm (zs : list net) : Prop := forall e, In e (flat_map net_fns zs) -> f_id (fst e) <> id0.
Lemma calm_app a b : calm (a ++ b) <-> calm a /\ calm b.
Proof.
  unfold calm. rewrite flat_map_app. split.
  - intros H. split; intros e I; apply H; apply in_or_app; auto.
  - intros [A B] e I. apply in_app_or in I. destruct I; auto.
Qed.
Lemma calm_cons g br k l : calm (Net g br k :: l) <-> f_id g <> id0 /\ calm k /\ calm l.
Proof.
  unfold calm. cbn [flat_map net_fns]. split.
  - intros H. split; [exact (H (g, net_bars br) (or_introl eq_refl))|]. split; intros e I; apply H; right; apply in_or_app; auto.
  - intros (A & B & C) e [<-|I]; [exact A|]. apply in_app_or in I. destruct I; auto.
Qed.
(** The place [K] for the functions on bus [n], with buses up to [hi] behind them *)
Definition opens (n hi : Z) (K : list net -> net) : Prop := forall zs, calm zs ->
  at_host (K zs) /\ forall b d f, n <= b <= hi -> leads b d f (K zs) = lin n b d f zs /\ forall g', instead g' b d f (K zs) = K (iin g' n b d f zs).
Lemma opens_host f : bus_range f = (0, 255) -> opens 0 255 (Net f true).
Proof.
  intros B zs C. split.
  - exists f, zs. split; [reflexivity|]. split; [exact B|]. intros g I E. elim (C (g, 2) I E).
  - intros b d k Hb. rewrite leads_lin, B. split; [reflexivity|]. intros g'. rewrite instead_iin, B. reflexivity.
Qed.
Lemma opens_bridge n hi K pre g post s u : opens n hi K -> calm pre -> calm post -> f_id g <> id0 -> bus_range g = (s, u) -> n < s -> u <= hi -> (forall c b, In c pre -> s <= b <= u -> covers b c = false) ->
  opens s u (fun ks => K (pre ++ Net g true ks :: post)).
Proof.
  intros O C1 C2 Ng B S U P ks C. assert (Ca : calm (pre ++ Net g true ks :: post)) by (apply calm_app; split; [exact C1|]; apply calm_cons; auto).
  destruct (O _ Ca) as [H Q]. split; [exact H|]. intros b d f Hb. destruct (Q b d f ltac:(lia)) as [Q1 Q2].
  assert (Cv : covers b (Net g true ks) = true) by (unfold covers; cbn [net_br net_fn]; rewrite B; cbn [fst snd]; lia). assert (Nb : (b =? n) = false) by lia. split.
  - rewrite Q1. clear - P Hb Cv Nb B. induction pre as [|c pre IH].
    + cbn [app lin]. rewrite Nb, Cv, leads_lin, B. reflexivity.
    + cbn [app lin]. rewrite Nb, (P c b (or_introl eq_refl) Hb). apply IH. intros c' b' I. apply P. right. exact I.
  - intros g'. rewrite Q2. f_equal. clear - P Hb Cv Nb B. induction pre as [|c pre IH].
    + cbn [app iin]. rewrite Nb, Cv, instead_iin, B. reflexivity.
    + cbn [app iin]. rewrite Nb, (P c b (or_introl eq_refl) Hb). f_equal. apply IH. intros c' b' I. apply P. right. exact I.
Qed.
Lemma lin_here n d f pre c post : (forall c, In c pre -> sits d f c = false) -> sits d f c = true -> lin n n d f (pre ++ c :: post) = Some (net_fn c, net_br c).
Proof.
  intros P S. induction pre as [|a pre IH]; cbn [app lin]; rewrite Z.eqb_refl; [rewrite S; reflexivity|]. rewrite (P a (or_introl eq_refl)). apply IH. intros c' I. apply P. right. exact I.
Qed.
Lemma iin_here g' n d f pre g br k post : (forall c, In c pre -> sits d f c = false) -> sits d f (Net g br k) = true -> iin g' n n d f (pre ++ Net g br k :: post) = pre ++ Net g' br k :: post.
Proof.
  intros P S. induction pre as [|a pre IH]; cbn [app iin]; rewrite Z.eqb_refl; [rewrite S; reflexivity|]. rewrite (P a (or_introl eq_refl)). f_equal. apply IH. intros c' I. apply P. right. exact I.
Qed.

(** ** One write *)
Lemma deliver_write_is rd wr tg f dev r d : f_id f = dev -> d <> [] -> zlen d <= 4 ->
  exists c be, cfg_deliver rd wr tg f (set_addr_be_data (4 * r) d (cfg_req CFG_WRITE_1 dev)) = Ok (wr r (from_le (d ++ zeros (4 - length d))) be f, [c]) /\
    0 <= be < 16 /\ (forall j, 0 <= j -> Z.testbit be j = (j <? zlen d)).
Proof.
  intros I Hd H2. assert (M : (4 * r) mod 4 = 0) by lia. assert (Dv : 4 * r / 4 = r) by lia. destruct (write_req (4 * r) d dev Hd ltac:(lia)) as (A & C & T & E & B1 & B2 & D & L). rewrite M, Dv in *.
  set (u := set_addr_be_data (4 * r) d (cfg_req CFG_WRITE_1 dev)) in *. clearbody u.
  assert (Dd : data u = d ++ zeros (4 - length d)).
  { rewrite D. change (zeros (Z.to_nat 0)) with (@nil Z). cbn [app]. assert (P : 1 <= zlen d) by (destruct d; [congruence|rewrite zlen_cons; pose proof (zlen_nonneg d); lia]). f_equal. f_equal. assert (X : (4 * r + zlen d - 1) mod 4 = zlen d - 1) by lia. rewrite X. unfold zlen in *. lia. }
  unfold cfg_deliver, to_type0. change (fmt_type (set_tag (tg (address u)) u)) with (fmt_type u). rewrite T. cbn [bind].
  set (w := set_fmt_type CFG_WRITE_0 (set_tag (tg (address u)) u)).
  change (fmt_type w) with (Ok CFG_WRITE_0). cbn [bind]. unfold handle_config_0_write, cfg_target.
  change (completer_id w) with (completer_id u). rewrite C, I, !Z.eqb_refl. cbn [andb].
  unfold unpack_l. change (data w) with (data u). rewrite L. cbn [Nat.eqb bind]. unfold capture. change (completer_id w) with (completer_id u).
  rewrite C. change (address w) with (address u). change (first_be w) with (first_be u).
  rewrite A, shiftr2, Dv. rewrite I. replace (mkId (bus dev) (device dev) (func dev)) with dev by (destruct dev; reflexivity).
  assert (Wi : with_id dev f = f) by (rewrite <- I; destruct f; reflexivity). rewrite Wi. set (f1 := wr _ _ _ _).
  pose proof (completion_send f1 w (f_id f1) [] SC E (or_introl eq_refl)) as S. cbv zeta in S. rewrite S. cbn [bind].
  exists (create_completion w (f_id f1) false SC), (first_be u). unfold f1 at 1. rewrite Dd. split; [reflexivity|]. split; [exact B1|]. intros j Hj. rewrite B2 by exact Hj. lia.
Qed.
Lemma write_is rd wr tg f r d be : d <> [] -> zlen d <= 4 -> 0 <= be < 16 -> (forall j, 0 <= j -> Z.testbit be j = (j <? zlen d)) ->
  config_write (cfg_deliver rd wr tg) (f_id f) (4 * r) d f = Ok (wr r (from_le (d ++ zeros (4 - length d))) be f).
Proof.
  intros N L B1 B2. destruct (deliver_write_is rd wr tg f (f_id f) r d eq_refl N L) as (c & be' & Q & B1' & B2').
  assert (Eb : be' = be) by (apply Z.bits_inj'; intros j Hj; rewrite B2, B2' by exact Hj; reflexivity). subst be'.
  unfold config_write. destruct d as [|y d]; [congruence|]. cbn [length config_write_loop].
  rewrite zlen_cons in *. pose proof (zlen_nonneg d) as P. replace (0 <? 1 + zlen d) with true by lia. rewrite Z.min_l by lia.
  replace (ModelRegion.slice 0 (1 + zlen d) (y :: d)) with (y :: d).
  2:{ unfold ModelRegion.slice. cbn [skipn Z.to_nat]. rewrite firstn_all2; [reflexivity|]. cbn [length]. unfold zlen. lia. }
  change (set_completer_id (f_id f) (set_requester_id id0 (set_fmt_type CFG_WRITE_1 tlp0))) with (cfg_req CFG_WRITE_1 (f_id f)). rewrite Q. cbn [bind].
  replace (skipn (Z.to_nat (1 + zlen d)) (y :: d)) with (@nil Z) by (symmetry; apply skipn_all2; cbn [length]; unfold zlen; lia).
  generalize (length d) at 1. intros [|k]; reflexivity.
Qed.
Lemma be15 j : 0 <= j -> Z.testbit 15 j = (j <? 4).
Proof.
  intros H. destruct (Z.ltb_spec j 4); [|apply (testbit_high 15 4); lia]. assert (C : j = 0 \/ j = 1 \/ j = 2 \/ j = 3) by lia. destruct C as [-> | [-> | [-> | ->]]]; reflexivity.
Qed.
Lemma be3 j : 0 <= j -> Z.testbit 3 j = (j <? 2).
Proof.
  intros H. destruct (Z.ltb_spec j 2); [|apply (testbit_high 3 2); lia]. assert (C : j = 0 \/ j = 1) by lia. destruct C as [-> | ->]; reflexivity.
Qed.
Lemma write_4 rd wr tg f r d : length d = 4%nat -> config_write (cfg_deliver rd wr tg) (f_id f) (4 * r) d f = Ok (wr r (from_le d) 15 f).
Proof.
  intros L. rewrite (write_is rd wr tg f r d 15); [rewrite L; cbn [zeros repeat Nat.sub]; rewrite app_nil_r; reflexivity|intros ->; discriminate L|unfold zlen; lia|lia|]. intros j Hj. rewrite be15 by exact Hj. unfold zlen. rewrite L. reflexivity.
Qed.
Lemma write_2 rd wr tg f r d : length d = 2%nat -> config_write (cfg_deliver rd wr tg) (f_id f) (4 * r) d f = Ok (wr r (from_le d) 3 f).
Proof.
  intros L. rewrite (write_is rd wr tg f r d 3); [|intros ->; discriminate L|unfold zlen; lia|lia|intros j Hj; rewrite be3 by exact Hj; unfold zlen; rewrite L; reflexivity].
  do 2 f_equal. destruct d as [|a [|b [|]]]; try discriminate L. cbn. lia.
Qed.

(** ** The function in its place *)
Section Here.
Context (tg : pcie_id -> Z -> Z) (n hi : Z) (K : list net -> net) (pre post : list net) (br : bool) (ks : list net) (d f : Z).
Hypothesis O : opens n hi K.
Hypothesis Bn : 0 <= n <= 255.
Hypothesis Hn : n <= hi.
Hypothesis Nh : mkId n d f <> id0.
Hypothesis C1 : calm pre.
Hypothesis C2 : calm post.
Hypothesis C3 : calm ks.
Hypothesis P : forall c, In c pre -> sits d f c = false.
Notation dev := (mkId n d f).
Notation at_ g := (K (pre ++ Net g br ks :: post)).
Notation cw := (fun dev => config_write (cfg_ask (tg dev)) dev).
Lemma write_here g addr dat g' : f_id g = dev -> config_write (cfg_deliver (cfg_rd br) (cfg_wr br) (tg dev)) dev addr dat g = Ok g' -> cw dev addr dat (at_ g) = Ok (at_ g').
Proof.
  intros I E. assert (Ca : calm (pre ++ Net g br ks :: post)) by (apply calm_app; split; [exact C1|]; apply calm_cons; rewrite I; auto).
  destruct (O _ Ca) as [H Q]. destruct (Q n d f ltac:(lia)) as [Q1 Q2]. assert (Si : sits d f (Net g br ks) = true) by (unfold sits; cbn [net_fn]; rewrite I; cbn [device func]; rewrite !Z.eqb_refl; reflexivity).
  rewrite (lin_here n d f pre (Net g br ks) post P Si) in Q1. cbn [net_fn net_br] in Q1. rewrite (tree_writes n d f (tg dev) Bn Nh addr dat _ g br H Q1), E. cbn [bind]. rewrite Q2, (iin_here g' n d f pre g br ks post P Si). reflexivity.
Qed.
Lemma wr_id r x be g : f_id (cfg_wr br r x be g) = f_id g.
Proof. apply (kinds_wr_id _ _ _ (kind_in br)). Qed.
Lemma dws_id l : forall r g, f_id (write_dws (cfg_wr br) r l g) = f_id g.
Proof. induction l as [|v l IH]; intros r g; [reflexivity|]. cbn [write_dws]. rewrite IH. apply wr_id. Qed.
Lemma put_dws_here l : forall r g, f_id g = dev -> Forall (fun v => 0 <= v < 2 ^ 32) l -> put_dws cw dev (4 * r) l (at_ g) = Ok (at_ (write_dws (cfg_wr br) r l g)).
Proof.
  induction l as [|v l IH]; intros r g I F; [reflexivity|]. pose proof (Forall_inv F) as V. cbv beta in V. cbn [put_dws write_dws]. unfold cfg_write_dword, to_bytes.
  replace ((0 <=? v) && (v <? 256 ^ Z.of_nat 4)) with true by (change (256 ^ Z.of_nat 4) with 4294967296; lia). cbn [bind].
  rewrite (write_here g (4 * r) (le_bytes 4 v) (cfg_wr br r v 15 g) I).
  - cbn [bind]. replace (4 * r + 4) with (4 * (r + 1)) by lia. apply IH; [rewrite wr_id; exact I|exact (Forall_inv_tail F)].
  - rewrite <- I, write_4 by apply le_bytes_length. rewrite from_le_le_bytes by (change (256 ^ Z.of_nat 4) with (2 ^ 32); exact V). reflexivity.
Qed.
Lemma put_allocs_here own : forall g, f_id g = dev -> Forall (fun a => a_reg a mod 4 = 0 /\ Forall (fun v => 0 <= v < 2 ^ 32) (a_dws a)) own ->
  put_allocs cw dev own (at_ g) = Ok (at_ (write_allocs (cfg_wr br) own g)).
Proof.
  induction own as [|a own IH]; intros g I F; [reflexivity|]. destruct (Forall_inv F) as [R V]. cbn [put_allocs]. unfold write_allocs. cbn [fold_left].
  assert (Er : a_reg a = 4 * (a_reg a / 4)) by lia. rewrite Er at 1. rewrite put_dws_here by assumption. cbn [bind]. apply IH; [rewrite dws_id; exact I|exact (Forall_inv_tail F)].
Qed.
End Here.
Lemma two_bytes k v w : (0 < k)%nat -> 0 <= v < 256 ^ Z.of_nat k -> 0 <= w < 256 ^ Z.of_nat k -> from_le (le_bytes k v ++ le_bytes k w) = Z.lor v (Z.shiftl w (8 * Z.of_nat k)).
Proof.
  intros Hk V W. assert (A : forall a b, from_le (a ++ b) = from_le a + 256 ^ Z.of_nat (length a) * from_le b).
  { induction a as [|x a IH]; intros b; cbn [app from_le length]; [cbn; destruct (from_le b); reflexivity|]. rewrite IH, Nat2Z.inj_succ, Z.pow_succ_r by lia. lia. }
  rewrite A, le_bytes_length, !from_le_le_bytes by assumption. rewrite Z.lor_comm. assert (E : 256 ^ Z.of_nat k = 2 ^ (8 * Z.of_nat k)) by (rewrite Z.pow_mul_r by lia; reflexivity). rewrite E in *. rewrite <- add_high by lia. lia.
Qed.
Lemma put_windows_here tg n hi K pre post ks d f : opens n hi K -> 0 <= n <= 255 -> n <= hi -> mkId n d f <> id0 -> calm pre -> calm post -> calm ks -> (forall c, In c pre -> sits d f c = false) ->
  forall g r, f_id g = mkId n d f -> regs_range r ->
  put_windows (fun dev => config_write (cfg_ask (tg dev)) dev) (mkId n d f) r (K (pre ++ Net g true ks :: post)) = Ok (K (pre ++ Net (write_windows r g) true ks :: post)).
Proof.
  intros O Bn Hn Nh C1 C2 C3 P g r I (R1 & R2 & R3 & R4 & R5 & R6).
  assert (W : forall g addr dat g', f_id g = mkId n d f -> config_write (cfg_deliver br_read br_write (tg (mkId n d f))) (mkId n d f) addr dat g = Ok g' ->
    config_write (cfg_ask (tg (mkId n d f))) (mkId n d f) addr dat (K (pre ++ Net g true ks :: post)) = Ok (K (pre ++ Net g' true ks :: post))).
  { intros g0 addr dat g' I0 E. exact (write_here tg n hi K pre post true ks d f O Bn Hn Nh C1 C2 C3 P g0 addr dat g' I0 E). }
  assert (Wi : forall q x be g0, f_id (br_write q x be g0) = f_id g0) by (intros; apply (wr_id true)).
  assert (H4 : forall q v w g0, f_id g0 = mkId n d f -> 0 <= v < 2 ^ 16 -> 0 <= w < 2 ^ 16 -> config_write (cfg_deliver br_read br_write (tg (mkId n d f))) (mkId n d f) (4 * q) (le_bytes 2 v ++ le_bytes 2 w) g0 = Ok (br_write q (Z.lor v (Z.shiftl w 16)) 15 g0)).
  { intros q v w g0 I0 V V'. rewrite <- I0, write_4 by reflexivity. rewrite two_bytes by (try lia; assumption). reflexivity. }
  assert (H1 : forall q v w g0, f_id g0 = mkId n d f -> 0 <= v < 2 ^ 8 -> 0 <= w < 2 ^ 8 -> config_write (cfg_deliver br_read br_write (tg (mkId n d f))) (mkId n d f) (4 * q) (le_bytes 1 v ++ le_bytes 1 w) g0 = Ok (br_write q (Z.lor v (Z.shiftl w 8)) 3 g0)).
  { intros q v w g0 I0 V V'. rewrite <- I0, write_2 by reflexivity. rewrite two_bytes by (try lia; assumption). reflexivity. }
  assert (HL : forall q v g0, f_id g0 = mkId n d f -> 0 <= v < 2 ^ 32 -> config_write (cfg_deliver br_read br_write (tg (mkId n d f))) (mkId n d f) (4 * q) (le_bytes 4 v) g0 = Ok (br_write q v 15 g0)).
  { intros q v g0 I0 V. rewrite <- I0, write_4 by reflexivity. rewrite from_le_le_bytes by assumption. reflexivity. }
  unfold put_windows, write_windows. cbv zeta.
  rewrite (W g 0x1c _ _ I (H1 7 (fst (r_io r)) (snd (r_io r)) g I ltac:(tauto) ltac:(tauto))). cbn [bind].
  set (g1 := br_write 7 _ _ g). assert (I1 : f_id g1 = mkId n d f) by (unfold g1; rewrite Wi; exact I). rewrite (W g1 0x30 _ _ I1 (H4 12 (fst (r_io_upper r)) (snd (r_io_upper r)) g1 I1 ltac:(tauto) ltac:(tauto))). cbn [bind].
  set (g2 := br_write 12 _ _ g1). assert (I2 : f_id g2 = mkId n d f) by (unfold g2; rewrite Wi; exact I1). rewrite (W g2 0x20 _ _ I2 (H4 8 (fst (r_mem r)) (snd (r_mem r)) g2 I2 ltac:(tauto) ltac:(tauto))). cbn [bind].
  set (g3 := br_write 8 _ _ g2). assert (I3 : f_id g3 = mkId n d f) by (unfold g3; rewrite Wi; exact I2). rewrite (W g3 0x24 _ _ I3 (H4 9 (fst (r_pref r)) (snd (r_pref r)) g3 I3 ltac:(tauto) ltac:(tauto))). cbn [bind].
  set (g4 := br_write 9 _ _ g3). assert (I4 : f_id g4 = mkId n d f) by (unfold g4; rewrite Wi; exact I3). rewrite (W g4 0x28 _ _ I4 (HL 10 (r_pref_base_upper r) g4 I4 ltac:(tauto))). cbn [bind].
  set (g5 := br_write 10 _ _ g4). assert (I5 : f_id g5 = mkId n d f) by (unfold g5; rewrite Wi; exact I4). exact (W g5 0x2c _ _ I5 (HL 11 (r_pref_limit_upper r) g5 I5 ltac:(tauto))).
Qed.
