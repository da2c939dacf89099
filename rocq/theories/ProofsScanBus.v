(** The reads and writes of enumeration, in the tree that it is about. *)
From Verif Require Import Base BaseProofs Bits SpecTlp ModelUtils ModelTlp ModelAttrs ModelCapList ModelConfig ModelFunction ModelRegion ModelHost ModelRoute ModelPci ModelPciCaps ModelEnum ModelTree SpecRoute SpecConfig SpecHost SpecTree
  ModelTreeUp ModelTreeCfg SpecTreeCfg ModelScan SpecScan ProofsMem ProofsUtils ProofsConfigLow ProofsHost ProofsBar ProofsProbe ProofsEnum ProofsTreeUpAll ProofsTreeCfgAll ProofsScan ProofsScanAll ProofsScanHw.

Lemma map_none k b d f h : hw_get b d f h = None -> hw_map k b d f h = h.
Proof.
  induction h as [x0 l IH] using hw_rect'. intros G. cbn [hw_get hw_map] in *. f_equal. revert G. induction l as [|c r IHr]; [reflexivity|]. pose proof (Forall_inv IH) as IH1. pose proof (Forall_inv_tail IH) as IH2. clear IH. destruct (b =? h_sec x0).
  - destruct (is_at d f c); [discriminate|]. intros E. rewrite (IHr IH2 E). reflexivity.
  - destruct (claims_bus b c); intros E; [rewrite (IH1 E); reflexivity|rewrite (IHr IH2 E); reflexivity].
Qed.
Lemma reads_three br g : exists v, cfg_rd br g 3 = Ok (Some v) /\ 0 <= v < 2 ^ 32.
Proof.
  assert (R : cfg_rd br g 3 = fn_read g 3) by (destruct br; reflexivity). rewrite R. unfold fn_read. cbn [Z.eqb Pos.eqb]. cbv zeta. eexists. split; [reflexivity|]. apply bits_range; [lia|]. intros i Hi.
  change 255 with (Z.ones 8). change 127 with (Z.ones 7). change 15 with (Z.ones 4). rewrite !Z.lor_spec, !Z.shiftl_spec, !Z.land_spec by lia. rewrite !Z.ones_spec_high by lia. rewrite !andb_false_r. cbn [orb].
  assert (B : forall q k, 1 <= k -> Z.testbit (Z.b2z q) k = false) by (intros q k Hk; destruct q; [apply (testbit_high 1 1); lia|apply Z.testbit_0_l]). rewrite !B by lia. reflexivity.
Qed.

Section Steps.
Context (h : hw) (z : net) (b d f : Z) (tg : Z -> Z).
Hypothesis P : pictured h z.
Hypothesis Bb : 0 <= b <= 255.
Notation dev := (mkId b d f).
Hypothesis Nh : dev <> id0.
Lemma at_there g br : leads b d f z = Some (g, br) -> at_id dev g.
Proof. exact (leads_at b d f z g br). Qed.
Lemma picture_with g br x : hw_get b d f h = Some x -> leads b d f z = Some (g, br) -> pictured h (instead (with_id dev g) b d f z).
Proof. intros G L. apply (same_kept h z b d f P Nh g br x (with_id dev g) G L); [split; [reflexivity|intros _; split; reflexivity]|split; reflexivity|right; reflexivity]. Qed.
(** Register 0 *)
Lemma picture_id crs : exists z', cfg_read_dword (config_read (cfg_ask tg) crs dev) 0 z = Ok (z', read_id h b d f) /\ pictured h z'.
Proof.
  pose proof (same_place h z b d f P) as Sp. unfold read_id. destruct (leads b d f z) as [[g br]|] eqn:L; destruct (hw_get b d f h) as [x|] eqn:G; cbn [agree] in Sp; try contradiction.
  - pose proof Sp as (_ & _ & _ & R & I & _). pose proof (read_dword _ _ _ tg crs dev 0 (h_id x) g (kind_in br) (at_there g br L) R I) as E. change (4 * 0) with 0 in E. unfold cfg_read_dword in E |- *.
    rewrite (tree_reads b d f tg Bb Nh crs 0 4 z g br (proj1 P) L). destruct (config_read (cfg_deliver _ _ tg) crs dev 0 4 g) as [[g' dd]|e]; [|discriminate E]. cbn [bind] in E |- *. injection E as -> ->.
    eexists. split; [reflexivity|]. exact (picture_with g br x G L).
  - exists z. split; [|exact P]. unfold cfg_read_dword. rewrite (proj1 (tree_nobody b d f tg Bb Nh crs 0 4 [] z (proj1 P) L ltac:(lia))). reflexivity.
Qed.
(** The header type *)
Lemma picture_header crs x : hw_get b d f h = Some x -> exists z', cfg_read_byte (config_read (cfg_ask tg) crs dev) 14 z = Ok (z', h_type x + if h_multi x then 128 else 0) /\ pictured h z'.
Proof.
  intros G. pose proof (same_place h z b d f P) as Sp. rewrite G in Sp. destruct (leads b d f z) as [[g br]|] eqn:L; cbn [agree] in Sp; [|contradiction]. destruct (reads_three br g) as (v & R & V). pose proof Sp as (_ & _ & _ & _ & _ & T & _).
  unfold cfg_read_byte. rewrite (tree_reads b d f tg Bb Nh crs 14 1 z g br (proj1 P) L). destruct (host_read _ _ _ tg crs dev 14 1 g (kind_in br) ltac:(lia) (at_there g br L)) as (dd & -> & Ld & B).
  { intros r Hr. replace r with 3 by lia. exists v. split; assumption. }
  cbn [bind Z.eqb Pos.eqb]. specialize (B 0 ltac:(lia)). change (14 + 0) with 14 in B. rewrite T in B. injection B as B. destruct dd as [|y [|]]; try (unfold zlen in Ld; cbn in Ld; lia). cbn [nth Z.to_nat] in B. rewrite <- B.
  eexists. split; [reflexivity|]. exact (picture_with g br x G L).
Qed.
(** The bus numbers *)
Lemma looks_buses x g br v y : looks x g br -> device (f_id g) = d -> func (f_id g) = f -> (forall i, 0 <= i < 32 -> Z.testbit y i = Z.testbit v i) -> 0 <= v < 2 ^ 32 ->
  looks (put_buses (v mod 256) (v / 256 mod 256) (v / 65536 mod 256) x) (cfg_wr br 6 y 15 (with_id dev g)) br.
Proof.
  intros Lk D F Y V. assert (Ei : f_id (cfg_wr br 6 y 15 (with_id dev g)) = dev) by (rewrite (kinds_wr_id _ _ _ (kind_in br)); reflexivity).
  set (g' := cfg_wr br 6 y 15 (with_id dev g)) in *. assert (A : forall a, In a fixed -> f_attr g' a = f_attr g a) by (intros a I; exact (wr_fixed br 6 y 15 (with_id dev g) a I)).
  pose proof Lk as (D0 & F0 & B0 & R0 & I0 & R3 & T & S).
  assert (E0 : cfg_rd br g' 0 = cfg_rd br g 0).
  { assert (R : forall k, cfg_rd br k 0 = fn_read k 0) by (intros k; destruct br; reflexivity). rewrite !R. unfold fn_read. cbn [Z.eqb]. cbv zeta. rewrite (A fn_vendor_id), (A fn_device_id) by (cbn; auto). reflexivity. }
  split; [rewrite Ei; cbn [device h_d put_buses]; congruence|]. split; [rewrite Ei; cbn [func h_f put_buses]; congruence|]. split; [exact B0|]. split; [exact (eq_trans E0 R0)|]. split; [exact I0|].
  split; [rewrite head_byte in R3 |- *; rewrite (A fn_header_layout), (A fn_multifunction_device) by (cbn; auto); exact R3|]. split; [exact T|].
  intros Eb. cbn [h_pri h_sec h_sub put_buses]. subst g'. rewrite Eb. cbn [cfg_wr]. clear - Y V.
  assert (L8 : forall k, 0 <= k <= 24 -> Z.land (Z.shiftr y k) 255 = v / 2 ^ k mod 256).
  { intros k Hk. change 255 with (Z.ones 8). rewrite Z.land_ones, Z.shiftr_div_pow2 by lia. change 256 with (2 ^ 8). apply Z.bits_inj'. intros i Hi. destruct (Z.ltb_spec i 8).
    - rewrite !Z.mod_pow2_bits_low, !Z.div_pow2_bits by lia. apply Y. lia.
    - rewrite !Z.mod_pow2_bits_high by lia. reflexivity. }
  pose proof (L8 0 ltac:(lia)) as L0. pose proof (L8 8 ltac:(lia)) as L1. pose proof (L8 16 ltac:(lia)) as L2. rewrite Z.shiftr_0_r in L0. change (2 ^ 0) with 1 in L0. rewrite Z.div_1_r in L0. change (2 ^ 8) with 256 in L1. change (2 ^ 16) with 65536 in L2.
  unfold bus_range. split; [exact L0|]. exact (f_equal2 pair L1 L2).
Qed.
Lemma picture_buses v : 0 <= v < 2 ^ 32 ->
  exists z', cfg_write_dword (config_write (cfg_ask tg) dev) 0x18 v z = Ok z' /\ pictured (hw_map (put_buses (v mod 256) (v / 256 mod 256) (v / 65536 mod 256)) b d f h) z'.
Proof.
  intros V. pose proof (same_place h z b d f P) as Sp. destruct (leads b d f z) as [[g br]|] eqn:L; destruct (hw_get b d f h) as [x|] eqn:G; cbn [agree] in Sp; try contradiction.
  - destruct (write_dword (cfg_rd br) (cfg_wr br) tg dev 6 v g (at_there g br L) V) as (y & E & Y). change (4 * 6) with 0x18 in E. unfold cfg_write_dword in E |- *. destruct (to_bytes 4 v) as [dat|e]; [|discriminate E]. cbn [bind] in E |- *.
    rewrite (tree_writes b d f tg Bb Nh 0x18 dat z g br (proj1 P) L), E. cbn [bind]. eexists. split; [reflexivity|]. destruct (at_there g br L) as [I1 I2].
    apply (same_step h z b d f P _ g br x _ G L); [apply looks_buses; assumption|]. rewrite (kinds_wr_id _ _ _ (kind_in br)). exact Nh.
  - exists z. rewrite (map_none _ b d f h G). split; [|exact P]. unfold cfg_write_dword, to_bytes. replace ((0 <=? v) && (v <? 256 ^ Z.of_nat 4)) with true by (change (256 ^ Z.of_nat 4) with (2 ^ 32); lia). cbn [bind].
    rewrite (proj2 (tree_nobody b d f tg Bb Nh None 0x18 0 (le_bytes 4 v) z (proj1 P) L ltac:(lia))). reflexivity.
Qed.
End Steps.
