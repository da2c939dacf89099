(** The configuration interfaces of the UltraScale device models (C55). *)
From Verif Require Import Base BaseProofs Bits ModelUtils ModelTlp ModelAttrs ModelCaps ModelCapList ModelConfig ModelDllp ModelPort ModelTlCfg ModelUsCfg
  SpecRegs SpecCaps SpecConfig SpecPort SpecTlCfg SpecUsCfg ProofsRegs ProofsCaps ProofsCapsLayout ProofsConfig ProofsConfigTop ProofsPort ProofsPortInv ProofsPortSys ProofsPortObs ProofsPortThms ProofsTlCfg.
Import SpecRegs.

(** ** Status *)
Lemma or_each_bit {A} (g : A -> Z -> Z) l : forall k acc i,
  Z.testbit (or_each g k l acc) i = Z.testbit acc i || existsb (fun p => Z.testbit (g (fst p) (snd p)) i) (combine l (map (fun n => k + Z.of_nat n) (List.seq 0 (length l)))).
Proof.
  induction l as [|x l IH]; intros k acc i; [cbn; rewrite orb_false_r; reflexivity|].
  cbn [or_each length List.seq map combine existsb fst snd]. rewrite IH, Z.lor_spec, <- orb_assoc. f_equal.
  replace (k + Z.of_nat 0) with k by lia. f_equal. rewrite <- seq_shift, map_map. f_equal. f_equal. apply map_ext. intros n. lia.
Qed.
(** Word [g x k] of [w] bits at position [w * k]. *)
Lemma or_each_word {A} (g : A -> Z -> Z) (h : A -> Z) w l : 0 < w -> (forall x k, 0 <= k -> g x k = Z.shiftl (h x) (w * k)) -> (forall x, 0 <= h x < 2 ^ w) ->
  forall k acc, 0 <= k -> 0 <= acc < 2 ^ (w * k) ->
  0 <= or_each g k l acc < 2 ^ (w * (k + zlen l)) /\
  (forall i, i < w * k -> Z.testbit (or_each g k l acc) i = Z.testbit acc i) /\
  forall n x j, nth_error l n = Some x -> 0 <= j < w -> Z.testbit (or_each g k l acc) (w * (k + Z.of_nat n) + j) = Z.testbit (h x) j.
Proof.
  intros W G H. induction l as [|x l IH]; intros k acc K B.
  - cbn [or_each]. replace (k + zlen (@nil A)) with k by (unfold zlen; cbn; lia). split; [exact B|]. split; [reflexivity|]. intros [|n] y j E; discriminate.
  - cbn [or_each]. rewrite (G x k K).
    assert (P : 0 <= w * k) by nia.
    assert (B' : 0 <= Z.lor acc (Z.shiftl (h x) (w * k)) < 2 ^ (w * (k + 1))).
    { assert (N : 0 <= Z.lor acc (Z.shiftl (h x) (w * k))) by (apply Z.lor_nonneg; split; [lia|apply Z.shiftl_nonneg; apply H]).
      split; [exact N|]. destruct (Z.eq_dec (Z.lor acc (Z.shiftl (h x) (w * k))) 0) as [->|NZ]; [apply Z.pow_pos_nonneg; nia|].
      apply Z.log2_lt_pow2; [lia|]. rewrite Z.log2_lor by (try apply Z.shiftl_nonneg; try apply H; lia).
      assert (0 < w * (k + 1)) by nia. apply Z.max_lub_lt.
      - destruct (Z.eq_dec acc 0) as [->|Na]; [cbn; lia|]. apply Z.lt_le_trans with (w * k); [apply Z.log2_lt_pow2; lia|nia].
      - destruct (Z.eq_dec (h x) 0) as [->|Nh]; [rewrite Z.shiftl_0_l; cbn; lia|].
        rewrite Z.log2_shiftl by (pose proof (H x); lia). pose proof (H x) as Hx. assert (Z.log2 (h x) < w) by (apply Z.log2_lt_pow2; lia). nia. }
    destruct (IH (k + 1) _ ltac:(lia) B') as (I1 & I2 & I3).
    replace (zlen (x :: l)) with (1 + zlen l) by (unfold zlen; cbn [length]; lia). rewrite Z.add_assoc. split; [exact I1|]. split.
    + intros i Hi. rewrite I2 by nia. rewrite Z.lor_spec. destruct (Z.ltb_spec i 0) as [Ni|Ni]; [rewrite !Z.testbit_neg_r by lia; reflexivity|].
      rewrite Z.shiftl_spec_low by lia. apply orb_false_r.
    + intros [|n] y j E J.
      * injection E as <-. replace (w * (k + Z.of_nat 0) + j) with (w * k + j) by (change (Z.of_nat 0) with 0; lia).
        rewrite I2 by nia. rewrite Z.lor_spec, Z.shiftl_spec by nia. replace (w * k + j - w * k) with j by lia.
        replace (Z.testbit acc (w * k + j)) with false; [reflexivity|]. symmetry. apply Z.testbit_false; [lia|]. rewrite Z.div_small; [reflexivity|].
        split; [lia|]. apply Z.lt_le_trans with (2 ^ (w * k)); [lia|apply Z.pow_le_mono_r; lia].
      * cbn [nth_error] in E. replace (k + Z.of_nat (S n)) with (k + 1 + Z.of_nat n) by lia. apply (I3 n y j E J).
Qed.
Lemma slice_bit v i : 0 <= i -> slice v i 1 = Z.b2z (Z.testbit v i).
Proof. intros. unfold slice. rewrite Z.testbit_spec' by lia. reflexivity. Qed.
Lemma flag_bit v i x : 0 <= i -> slice v i 1 = (if x =? 0 then 0 else 1) -> Z.testbit v i = zbool x.
Proof. intros I E. rewrite slice_bit in E by lia. unfold zbool. destruct (x =? 0), (Z.testbit v i); cbn in E |- *; congruence. Qed.

Lemma command_bits f :
  Z.testbit (command f) 2 = zbool (w_fn f fn_bus_master_enable) /\ Z.testbit (command f) 10 = zbool (w_fn f fn_interrupt_disable).
Proof.
  unfold command, host_reads.
  destruct (fn_shows (mkFn (w_fn f) (fun _ => mkCap KMsi 0 0 0 None 0 (fun _ => 0)) [] [] (w_id f)) 1 ltac:(lia)) as (v & E & _ & V & _).
  rewrite E. cbn [reads0]. cbn [ModelConfig.f_attr] in V.
  split; apply flag_bit; try lia.
  - apply (V (Fld 2 1 (Flag fn_bus_master_enable))); [cbn; tauto|]. intros. apply Z.bits_0.
  - apply (V (Fld 10 1 (Flag fn_interrupt_disable))); [cbn; tauto|]. intros. apply Z.bits_0.
Qed.
Lemma link_bits f : Z.testbit (link_register f) 3 = zbool (w_pe f pe_read_completion_boundary) /\
  slice (link_register f) 16 4 = w_pe f pe_current_link_speed mod 16 /\ slice (link_register f) 20 6 = w_pe f pe_negotiated_link_width mod 64.
Proof.
  unfold link_register, host_reads. destruct (pec_shows (w_pe f) 4) as (v & E & _ & V & _). rewrite E. cbn [reads0]. split; [|split].
  - apply flag_bit; [lia|]. apply (V (Fld 3 1 (Flag pe_read_completion_boundary))); [cbn; tauto|]. intros. apply Z.bits_0.
  - apply (V (Fld 16 4 (Num pe_current_link_speed))); [cbn; tauto|]. intros. apply Z.bits_0.
  - apply (V (Fld 20 6 (Num pe_negotiated_link_width))); [cbn; tauto|]. intros. apply Z.bits_0.
Qed.
Lemma device_bits f : slice (device_control f) 5 3 = w_pe f pe_max_payload_size mod 8 /\ slice (device_control f) 12 3 = w_pe f pe_max_read_request_size mod 8.
Proof.
  unfold device_control, host_reads. destruct (pec_shows (w_pe f) 2) as (v & E & _ & V & _). rewrite E. cbn [reads0]. split.
  - apply (V (Fld 5 3 (Num pe_max_payload_size))); [cbn; tauto|]. intros. apply Z.bits_0.
  - apply (V (Fld 12 3 (Num pe_max_read_request_size))); [cbn; tauto|]. intros. apply Z.bits_0.
Qed.
Lemma func_ok fs : function_bits low_two fs (function_status fs).
Proof.
  unfold function_status, function_bits.
  match goal with |- context [or_each ?g _ _ _] =>
    destruct (or_each_word g (fun f => Z.lor (if zbool (w_fn f fn_bus_master_enable) then 7 else 0) (if zbool (w_fn f fn_interrupt_disable) then 8 else 0)) 4 fs)
      with (k := 0) (acc := 0) as (A & _ & C) end.
  - lia.
  - intros x k K. replace (k * 4) with (4 * k) by lia. rewrite Z.shiftl_lor. destruct (zbool _), (zbool _); rewrite ?Z.shiftl_0_l; reflexivity.
  - intros x. destruct (zbool _), (zbool _); cbn; lia.
  - lia.
  - cbn. lia.
  - rewrite Z.add_0_l in A. split; [exact A|]. intros k f j E J X. specialize (C k f j E J). rewrite Z.add_0_l in C. rewrite C.
    destruct (command_bits f) as (C2 & C10). unfold low_two in X. unfold status_bit.
    assert (j = 2 \/ j = 3) as [-> | ->] by lia; cbn [Z.eqb Pos.eqb]; rewrite ?C2, ?C10; destruct (zbool _), (zbool _); reflexivity.
Qed.
Lemma rcb_ok fs : rcb_bits fs (rcb_status fs).
Proof.
  unfold rcb_status, rcb_bits.
  match goal with |- context [or_each ?g _ _ _] =>
    destruct (or_each_word g (fun f => if zbool (w_pe f pe_read_completion_boundary) then 1 else 0) 1 fs)
      with (k := 0) (acc := 0) as (A & _ & C) end.
  - lia.
  - intros x k K. replace (1 * k) with k by lia. destruct (zbool _); rewrite ?Z.shiftl_0_l; reflexivity.
  - intros x. destruct (zbool _); cbn; lia.
  - lia.
  - cbn. lia.
  - rewrite Z.add_0_l, Z.mul_1_l in A. split; [exact A|]. intros k f E. specialize (C k f 0 E ltac:(lia)).
    replace (1 * (0 + Z.of_nat k) + 0) with (Z.of_nat k) in C by lia. rewrite C. destruct (link_bits f) as (L & _). rewrite L. destruct (zbool _); reflexivity.
Qed.
Lemma bit_length_pow j : 0 <= j -> bit_length (2 ^ j) = j + 1.
Proof.
  intros. unfold bit_length. assert (0 < 2 ^ j) by (apply Z.pow_pos_nonneg; lia). destruct (Z.eqb_spec (2 ^ j) 0); [lia|].
  rewrite Z.abs_eq, Z.log2_pow2 by lia. reflexivity.
Qed.
Theorem status_shows plus reset fs s : Forall (fun f => pe_ok (w_pe f)) fs -> us_status plus reset fs = Some s -> status_ok plus reset fs low_two s.
Proof.
  intros P E. destruct fs as [|f fs]; [discriminate|]. unfold us_status in E. injection E as <-. split; cbn [s_link_down s_lnk_up s_width s_speed s_mps s_mrrs s_func s_rcb].
  - destruct reset; reflexivity.
  - destruct reset; reflexivity.
  - intros f0 E. injection E as <-. apply Forall_inv in P. destruct P as [P1 P2 P3 P4]. destruct (link_bits f) as (_ & L1 & L2). destruct (device_bits f) as (D1 & D2).
    rewrite L1, L2, D1, D2, !Z.mod_small by lia. unfold shows_width, shows_speed. destruct plus.
    + repeat split.
      * intros j J ->. rewrite bit_length_pow by lia. lia.
      * intros. lia.
      * intros X. cbv iota in X. change 3 with (Z.ones 2). rewrite Z.land_ones by lia. apply Z.mod_small. change (2 ^ 2) with 4. lia.
    + repeat split. intros G. assert (w_pe f pe_current_link_speed = 1 \/ w_pe f pe_current_link_speed = 2 \/ w_pe f pe_current_link_speed = 3) as [-> | [-> | ->]] by lia; reflexivity.
  - apply func_ok.
  - apply rcb_ok.
Qed.
Lemma pe_start : pe_ok pec_init.
Proof. split; vm_compute; split; congruence. Qed.
Lemma land7 x : 0 <= Z.land x 7 < 8.
Proof. change 7 with (Z.ones 3). rewrite Z.land_ones by lia. apply Z.mod_pos_bound. lia. Qed.
Definition four (s : attrs) := (s pe_max_payload_size, s pe_max_read_request_size, s pe_negotiated_link_width, s pe_current_link_speed).
Lemma pec_four reg data mask s : four (pec_write reg data mask s) =
  if reg =? 2 then (if bit mask 0 then Z.land (Z.shiftr data 5) 7 else s pe_max_payload_size, if bit mask 1 then Z.land (Z.shiftr data 12) 7 else s pe_max_read_request_size,
    s pe_negotiated_link_width, s pe_current_link_speed) else four s.
Proof.
  unfold pec_write, four.
  repeat match goal with |- context [if reg =? ?k then _ else _] => destruct (reg =? k) end;
  cbv [when aset aclear Pos.eqb pe_max_payload_size pe_max_read_request_size pe_negotiated_link_width pe_current_link_speed];
  repeat match goal with |- context [if bit mask ?k then _ else _] => destruct (bit mask k) end; try reflexivity.
Qed.
Lemma pe_kept reg data be s : pe_ok s -> pe_ok (pec_write reg data be s).
Proof.
  intros [A B C D]. pose proof (pec_four reg data be s) as F. unfold four in F.
  apply pair_equal_spec in F || (destruct (reg =? 2); apply pair_equal_spec in F).
  all: destruct F as [F F4]; apply pair_equal_spec in F; destruct F as [F F3]; apply pair_equal_spec in F; destruct F as [F1 F2].
  all: split; rewrite ?F1, ?F2, ?F3, ?F4; try assumption.
  all: match goal with |- context [if ?b then _ else _] => destruct b end; try assumption; apply land7.
Qed.

(** ** Flow control *)
Lemma fc_sel_tx plus : us_fc_sel plus 4 = Ok (Some STxAvail).
Proof. destruct plus; reflexivity. Qed.
Lemma land_mod_bits k x : (if k : bool then Z.land x 0xfff else Z.land x 0xff) = x mod 2 ^ fc_bits k.
Proof. destruct k; [change 0xfff with (Z.ones 12)|change 0xff with (Z.ones 8)]; cbn [fc_bits]; apply Z.land_ones; lia. Qed.
Lemma fc_shown_ok plus sel c x v k ty : us_fc_sel plus sel = Ok (Some x) -> us_fc plus sel c = Ok v ->
  fc_shown k ty v = fc_get x (fcof k ty c) mod 2 ^ fc_bits k.
Proof.
  unfold us_fc. intros ->. cbn [bind]. intros E. injection E as <-. unfold fc_shown, fcof.
  rewrite <- land_mod_bits. destruct k, ty; reflexivity.
Qed.
Lemma tx_avail_nonneg s : 0 <= f_bits s -> 0 <= tx_credits_available s.
Proof.
  intros B. unfold tx_credits_available, f_mask. assert (0 < 2 ^ f_bits s) by (apply Z.pow_pos_nonneg; lia).
  destruct (tx_is_infinite s); [lia|]. replace (2 ^ f_bits s - 1) with (Z.ones (f_bits s)) by (rewrite Z.ones_equiv; lia).
  rewrite Z.land_ones by lia. apply Z.mod_pos_bound. lia.
Qed.

Lemma fbits ia ib st s k ty : reach ia ib st -> f_bits (fcof k ty (p_ch (s_port st s))) = bits k.
Proof. intros R. destruct (reach_inv _ _ _ R s) as [D _]. pose proof (d_fc _ _ _ _ _ _ _ _ _ _ D k ty) as F. cbv zeta in F. apply F. Qed.
Lemma shown_le k x : 0 <= x -> 0 <= x mod 2 ^ fc_bits k <= x.
Proof. intros. assert (0 < 2 ^ fc_bits k) by (destruct k; reflexivity). split; [apply Z.mod_pos_bound; lia|apply Z.mod_le; lia]. Qed.
Theorem fc_tx plus ia ib st s v k ty : reach ia ib st -> c_fi2 (p_ch (s_port st s)) = true -> us_fc plus 4 (p_ch (s_port st s)) = Ok v ->
  advertised ia ib k ty (negb s) = 0 \/ 0 <= fc_shown k ty v <= advertised ia ib k ty (negb s) - in_use k ty s (s_log st).
Proof.
  intros R F E. rewrite (fc_shown_ok _ _ _ _ _ k ty (fc_sel_tx plus) E). cbn [fc_get].
  destruct (gate_sound _ _ _ s k ty R F) as [G|G]; [left; exact G|right].
  assert (N : 0 <= tx_credits_available (fcof k ty (p_ch (s_port st s)))) by (apply tx_avail_nonneg; rewrite (fbits _ _ _ _ _ _ R); destruct k; cbn; lia).
  pose proof (shown_le k _ N). lia.
Qed.
Theorem fc_go plus ia ib st s v t ty : reach ia ib st -> c_fi2 (p_ch (s_port st s)) = true -> us_fc plus 4 (p_ch (s_port st s)) = Ok v ->
  get_fc_type t = Ok ty -> credits false ty t <= fc_shown false ty v -> credits true ty t <= fc_shown true ty v ->
  exists st', step (EGate s t) st = Ok st' /\ gated s (s_log st') = gated s (s_log st) ++ [t].
Proof.
  intros R F E T H D. rewrite (fc_shown_ok _ _ _ _ _ false ty (fc_sel_tx plus) E) in H. rewrite (fc_shown_ok _ _ _ _ _ true ty (fc_sel_tx plus) E) in D. cbn [fc_get] in *.
  assert (N : forall k, 0 <= tx_credits_available (fcof k ty (p_ch (s_port st s)))) by (intros k; apply tx_avail_nonneg; rewrite (fbits _ _ _ _ _ _ R); destruct k; cbn; lia).
  pose proof (shown_le false _ (N false)) as A0. pose proof (shown_le true _ (N true)) as A1.
  destruct (reach_inv _ _ _ R s) as [V _]. destruct (d_flags _ _ _ _ _ _ _ _ _ _ V) as (_ & G1 & _).
  rewrite (credits_of _ _ _ _ T) in H. rewrite (credits_of _ _ _ _ T) in D. assert (fc_eqb ty ty = true) as Y by (destruct ty; reflexivity). rewrite Y in H, D.
  assert (X : tx_has_credit ty (get_data_credits t) (p_ch (s_port st s)) = true).
  { unfold tx_has_credit. unfold fcof in *. cbv iota in *. apply andb_true_intro. lia. }
  cbn [step]. unfold tx_gate. rewrite T, G1, F, X. cbn [andb]. eexists. split; [reflexivity|].
  unfold sys_port. cbn [s_log]. unfold gated. rewrite flat_map_app. cbn. rewrite eqb_reflx. reflexivity.
Qed.
Theorem fc_exact plus ia ib st s v k ty : reach ia ib st -> us_fc plus 4 (p_ch (s_port st s)) = Ok v ->
  tx_credits_available (fcof k ty (p_ch (s_port st s))) < 2 ^ fc_bits k -> fc_shown k ty v = tx_credits_available (fcof k ty (p_ch (s_port st s))).
Proof.
  intros R E H. rewrite (fc_shown_ok _ _ _ _ _ k ty (fc_sel_tx plus) E). cbn [fc_get]. apply Z.mod_small. split; [|exact H].
  apply tx_avail_nonneg. rewrite (fbits _ _ _ _ _ _ R). destruct k; cbn; lia.
Qed.
Theorem fc_rx ia ib st s v k ty : reach ia ib st -> us_fc false 0 (p_ch (s_port st s)) = Ok v ->
  fc_shown k ty v = if advertised ia ib k ty s =? 0 then 2 ^ fc_bits k - 1 else (advertised ia ib k ty s - held k ty s (s_log st)) mod 2 ^ fc_bits k.
Proof.
  intros R E. rewrite (fc_shown_ok false 0 _ SRxAvail _ k ty eq_refl E). cbn [fc_get]. rewrite (rx_counters _ _ _ _ _ _ R). fold (held k ty s (s_log st)).
  destruct (_ =? 0); [destruct k; reflexivity|reflexivity].
Qed.
Lemma mod_sub_mod a b k : ((a - b) mod 2 ^ bits k) mod 2 ^ fc_bits k = (a mod 2 ^ fc_bits k - b mod 2 ^ fc_bits k) mod 2 ^ fc_bits k.
Proof.
  rewrite <- Zminus_mod. destruct k; cbn [bits fc_bits].
  - change (2 ^ 16) with (2 ^ 12 * 2 ^ 4). rewrite Z.rem_mul_r by lia. rewrite Z.mul_comm, Z_mod_plus_full. apply Z.mod_mod. lia.
  - change (2 ^ 12) with (2 ^ 8 * 2 ^ 4). rewrite Z.rem_mul_r by lia. rewrite Z.mul_comm, Z_mod_plus_full. apply Z.mod_mod. lia.
Qed.
Lemma mask_mod k x : Z.land x (2 ^ bits k - 1) = x mod 2 ^ bits k.
Proof. exact (land_mask k x). Qed.
Theorem fc_diff plus ia ib st s k ty v4 v5 v6 : reach ia ib st -> c_fi2 (p_ch (s_port st s)) = true -> advertised ia ib k ty (negb s) <> 0 ->
  us_fc plus 4 (p_ch (s_port st s)) = Ok v4 -> us_fc plus 5 (p_ch (s_port st s)) = Ok v5 -> us_fc plus 6 (p_ch (s_port st s)) = Ok v6 ->
  fc_shown k ty v4 = (fc_shown k ty v5 - fc_shown k ty v6) mod 2 ^ fc_bits k.
Proof.
  intros R F A E4 E5 E6. rewrite (fc_shown_ok plus 4 _ STxAvail _ k ty ltac:(destruct plus; reflexivity) E4),
    (fc_shown_ok plus 5 _ STxLimit _ k ty ltac:(destruct plus; reflexivity) E5), (fc_shown_ok plus 6 _ STxCons _ k ty ltac:(destruct plus; reflexivity) E6). cbn [fc_get].
  destruct (reach_inv _ _ _ R s) as [D _]. pose proof (d_fc _ _ _ _ _ _ _ _ _ _ D k ty) as G. cbv zeta in G.
  destruct (d_flags _ _ _ _ _ _ _ _ _ _ D) as (_ & _ & G1 & G2). rewrite (G1 F) in G2. symmetry in G2.
  apply andb_prop in G2. destruct G2 as [G2 G3]. apply andb_prop in G2. destruct G2 as [G2 G4].
  assert (G' : get3 ty (c_fi1t (p_ch (s_port st s))) = true) by (destruct ty; assumption). rewrite G' in G.
  destruct G as (_ & B & _ & _ & _ & _ & f0 & _ & _ & _ & T & _).
  unfold tx_credits_available at 1. unfold tx_is_infinite, f_mask. rewrite T, B. unfold adv_of. destruct (Z.eqb_spec (advertised ia ib k ty (negb s)) 0) as [Z|_]; [contradiction|].
  rewrite mask_mod. apply mod_sub_mod.
Qed.

(** ** Errors *)
Theorem errs_in_order l : forall q, let (o, q') := usp_errs l q in valid_ones o ++ q' = q ++ reports l.
Proof.
  induction l as [|[e|] l IH]; intros q; cbn [usp_errs].
  - unfold reports. cbn. rewrite app_nil_r. reflexivity.
  - specialize (IH (q ++ [e])). destruct (usp_errs l (q ++ [e])) as [o q']. rewrite IH, <- app_assoc. reflexivity.
  - destruct q as [|x q]; cbn [usp_err_edge].
    + specialize (IH []). destruct (usp_errs l []) as [o q']. exact IH.
    + specialize (IH q). destruct (usp_errs l q) as [o q']. unfold valid_ones in *. cbn. rewrite IH. reflexivity.
Qed.

(** ** Configuration management *)
Lemma fn_set_write k : forall g fns f, nth_error fns k = Some f -> fn_set k (g f) fns = write_nth k g fns.
Proof.
  unfold fn_set. induction k as [|k IH]; intros g [|x fns] f E; try discriminate.
  - injection E as ->. reflexivity.
  - cbn [nth_error] in E. cbn [firstn skipn app write_nth]. rewrite <- (IH g fns f E). reflexivity.
Qed.
Lemma run_mev_app l1 : forall l2 s, mg_run (l1 ++ l2) s = let (o1, s1) := mg_run l1 s in let (o2, s2) := mg_run l2 s1 in (o1 ++ o2, s2).
Proof.
  induction l1 as [|[i|g] l IH]; intros l2 s; cbn [app mg_run].
  - destruct (mg_run l2 s). reflexivity.
  - rewrite IH. destruct (mg_run l (mg_edge i s)) as [o1 s1]. destruct (mg_run l2 s1). reflexivity.
  - apply IH.
Qed.
Lemma run_others gs : forall ph d rd fns, mg_run (others gs) (mkMst ph d rd fns) = ([], mkMst ph d rd (apply_others gs fns)).
Proof. induction gs as [|g gs IH]; intros; [reflexivity|]. cbn [others map mg_run]. unfold mg_other at 1. cbn [mg_ph mg_done mg_rdata mg_fns]. rewrite IH. reflexivity. Qed.
Lemma run_step a ph d rd fns s : mg_edge (snd a) (mkMst ph d rd (apply_others (fst a) fns)) = s -> mg_run (step_events a) (mkMst ph d rd fns) = ([(mg_done s, mg_rdata s)], s).
Proof. intros E. unfold step_events. rewrite run_mev_app, run_others. cbn [mg_run]. rewrite E. reflexivity. Qed.
Lemma run_cat a b s o1 s1 o2 s2 : mg_run a s = (o1, s1) -> mg_run b s1 = (o2, s2) -> mg_run (a ++ b) s = (o1 ++ o2, s2).
Proof. intros A B. rewrite run_mev_app, A, B. reflexivity. Qed.
Lemma access_ok i d rd fns v : access_value i fns rd = Some v -> forall n, mg_access i (mkMst (MWait n i) d rd fns) = mkMst MIdle true v (access_fns i fns).
Proof.
  unfold access_value, access_fns, mg_access. cbn [mg_done mg_rdata mg_fns]. intros E n. destruct (mi_int i); [injection E as <-; reflexivity|]. cbn [orb].
  destruct (nth_error fns (mi_fn i)) as [f|] eqn:N; [|discriminate]. destruct (mi_read i).
  - destruct (ep_read f (mi_reg i)) as [[x|]|]; [injection E as <-; reflexivity|discriminate|discriminate].
  - injection E as <-. rewrite (fn_set_write (mi_fn i) (ep_write (mi_reg i) (mi_data i) (mi_be i)) fns f N). reflexivity.
Qed.
Lemma seg_run x rd fns o fns' rd' : seg_ok x -> segs_do [x] fns rd = Some (o, fns', rd') ->
  mg_run (seg_events x) (mkMst MIdle false rd fns) = (o, mkMst MIdle false rd' fns').
Proof.
  destruct x as [i|g|i a b c d]; cbn [seg_ok segs_do seg_events]; intros K E.
  - injection E as <- <- <-. cbn [mg_run]. unfold mg_edge. cbn [mg_ph mg_done]. unfold requests in K. rewrite K. reflexivity.
  - injection E as <- <- <-. reflexivity.
  - set (fa := apply_others (fst a) fns) in *. set (fb := apply_others (fst b) fa) in *. set (fc := apply_others (fst c) fb) in *.
    destruct (access_value i fc rd) as [v|] eqn:V; [|discriminate]. injection E as <- <- <-.
    change (Edge i :: step_events a ++ step_events b ++ step_events c ++ step_events d) with ([Edge i] ++ step_events a ++ step_events b ++ step_events c ++ step_events d).
    apply (run_cat _ _ _ [(false, rd)] (mkMst (MWait 0 i) false rd fns)).
    { cbn [mg_run]. unfold mg_edge. cbn [mg_ph mg_done mg_rdata mg_fns]. unfold requests in K. rewrite K. reflexivity. }
    apply (run_cat _ _ _ [(false, rd)] (mkMst (MWait 1 i) false rd fa)); [apply (run_step a _ _ _ _ (mkMst (MWait 1 i) false rd fa)); reflexivity|].
    apply (run_cat _ _ _ [(false, rd)] (mkMst (MWait 2 i) false rd fb)); [apply (run_step b _ _ _ _ (mkMst (MWait 2 i) false rd fb)); reflexivity|].
    apply (run_cat _ _ _ [(true, v)] (mkMst MIdle true v (access_fns i fc))).
    { apply (run_step c _ _ _ _ (mkMst MIdle true v (access_fns i fc))). fold fc. unfold mg_edge. cbn [mg_ph Nat.eqb]. apply access_ok. exact V. }
    apply (run_step d _ _ _ _ (mkMst MIdle false v (apply_others (fst d) (access_fns i fc)))). reflexivity.
Qed.
Lemma segs_cons x l fns rd : segs_do (x :: l) fns rd =
  match segs_do [x] fns rd with
  | Some (o, f, v) => match segs_do l f v with Some (o', f', v') => Some (o ++ o', f', v') | None => None end
  | None => None
  end.
Proof.
  destruct x as [i|g|i a b c d]; cbn [segs_do].
  - destruct (segs_do l fns rd) as [[[]]|]; reflexivity.
  - destruct (segs_do l (g fns) rd) as [[[]]|]; reflexivity.
  - destruct (access_value i _ rd); [|reflexivity]. destruct (segs_do l _ _) as [[[]]|]; reflexivity.
Qed.
Theorem mgmt_ok l : forall fns rd o fns' rd', Forall seg_ok l -> segs_do l fns rd = Some (o, fns', rd') ->
  mg_run (flat_map seg_events l) (mkMst MIdle false rd fns) = (o, mkMst MIdle false rd' fns').
Proof.
  induction l as [|x l IH]; intros fns rd o fns' rd' K E.
  - injection E as <- <- <-. reflexivity.
  - rewrite segs_cons in E. destruct (segs_do [x] fns rd) as [[[o1 f1] v1]|] eqn:E1; [|discriminate].
    destruct (segs_do l f1 v1) as [[[o2 f2] v2]|] eqn:E2; [|discriminate]. injection E as <- <- <-.
    cbn [flat_map]. eapply run_cat; [apply seg_run; [exact (Forall_inv K)|exact E1]|apply IH; [exact (Forall_inv_tail K)|exact E2]].
Qed.
(** Every sequence of events consists of such segments, except for a last access that is not done yet. *)
Lemma split_edge es : (exists gs, es = others gs) \/ exists gs i r, es = others gs ++ Edge i :: r.
Proof.
  induction es as [|[i|g] es IH]; [left; exists []; reflexivity|right; exists [], i, es; reflexivity|].
  destruct IH as [(gs & ->)|(gs & i & r & ->)]; [left; exists (g :: gs); reflexivity|right; exists (g :: gs), i, r; reflexivity].
Qed.
Lemma edges_app a b : edges (a ++ b) = (edges a + edges b)%nat.
Proof. unfold edges. rewrite filter_app, app_length. reflexivity. Qed.
Lemma edges_others gs : edges (others gs) = 0%nat.
Proof. unfold edges, others. induction gs; [reflexivity|exact IHgs]. Qed.
Definition open (l : list mev) : Prop := l = [] \/ exists i r, requests i = true /\ l = Edge i :: r /\ (edges l < 5)%nat.
Theorem mgmt_all n : forall es, (length es <= n)%nat -> exists l tail, Forall seg_ok l /\ es = flat_map seg_events l ++ tail /\ open tail.
Proof.
  induction n as [|n IH]; intros es L.
  { destruct es; [|cbn in L; lia]. exists [], []. split; [constructor|]. split; [reflexivity|left; reflexivity]. }
  destruct es as [|[i|g] es]; [exists [], []; split; [constructor|split; [reflexivity|left; reflexivity]]| |].
  - destruct (requests i) eqn:Q.
    2:{ destruct (IH es ltac:(cbn in L; lia)) as (l & t & A & B & C). exists (SIdle i :: l), t. split; [constructor; [exact Q|exact A]|]. split; [cbn; rewrite B; reflexivity|exact C]. }
    assert (O : forall r, (edges r < 4)%nat -> open (Edge i :: r)) by (intros r E; right; exists i, r; split; [exact Q|split; [reflexivity|unfold edges in *; cbn [filter length]; lia]]).
    assert (P : (edges es < 4)%nat -> exists l tail, Forall seg_ok l /\ Edge i :: es = flat_map seg_events l ++ tail /\ open tail)
      by (intros E; exists [], (Edge i :: es); split; [constructor|split; [reflexivity|apply O; exact E]]).
    destruct (split_edge es) as [(g1 & E1)|(g1 & i1 & r1 & E1)]; [apply P; rewrite E1, edges_others; lia|].
    destruct (split_edge r1) as [(g2 & E2)|(g2 & i2 & r2 & E2)]; [apply P; rewrite E1, edges_app, edges_others, E2; change (Edge i1 :: others g2) with ([Edge i1] ++ others g2); rewrite edges_app, edges_others; cbn; lia|].
    destruct (split_edge r2) as [(g3 & E3)|(g3 & i3 & r3 & E3)];
      [apply P; rewrite E1, E2, E3; change (Edge i1 :: others g2 ++ Edge i2 :: others g3) with ([Edge i1] ++ others g2 ++ [Edge i2] ++ others g3); rewrite !edges_app, !edges_others; cbn; lia|].
    destruct (split_edge r3) as [(g4 & E4)|(g4 & i4 & r4 & E4)];
      [apply P; rewrite E1, E2, E3, E4; change (Edge i1 :: others g2 ++ Edge i2 :: others g3 ++ Edge i3 :: others g4)
        with ([Edge i1] ++ others g2 ++ [Edge i2] ++ others g3 ++ [Edge i3] ++ others g4); rewrite !edges_app, !edges_others; cbn; lia|].
    destruct (IH r4) as (l & t & A & B & C).
    { rewrite E1, E2, E3, E4 in L. cbn [length] in L. rewrite !app_length in L. cbn [length] in L. rewrite !app_length in L. cbn [length] in L.
      rewrite !app_length in L. cbn [length] in L. rewrite !app_length in L. cbn [length] in L. lia. }
    exists (SAccess i (g1, i1) (g2, i2) (g3, i3) (g4, i4) :: l), t. split; [constructor; [exact Q|exact A]|]. split; [|exact C].
    cbn [flat_map seg_events]. unfold step_events. cbn [fst snd]. rewrite E1, E2, E3, E4, B. cbn [app]. rewrite <- !app_assoc. cbn [app]. reflexivity.
  - destruct (IH es ltac:(cbn in L; lia)) as (l & t & A & B & C). exists (SOther g :: l), t. split; [constructor; [exact Logic.I|exact A]|]. split; [cbn; rewrite B; reflexivity|exact C].
Qed.
(** Once the coroutine has raised nothing happens any more. *)
Lemma dead es : forall e d rd fns, exists fns', mg_run es (mkMst (MDead e) d rd fns) = (repeat (d, rd) (edges es), mkMst (MDead e) d rd fns').
Proof.
  induction es as [|[i|g] es IH]; intros e d rd fns; [exists fns; reflexivity| |].
  - cbn [mg_run]. unfold mg_edge. cbn [mg_ph]. destruct (IH e d rd fns) as (f' & ->). exists f'. reflexivity.
  - cbn [mg_run]. destruct (IH e d rd (g fns)) as (f' & E). exists f'. unfold mg_other. cbn [mg_ph mg_done mg_rdata mg_fns]. rewrite E. reflexivity.
Qed.
Lemma addr_split fn reg : (fn < 128)%nat -> 0 <= reg < 1024 -> us_mgmt_addr (1024 * Z.of_nat fn + reg) = (fn, reg, false) /\ us_mgmt_addr (2 ^ 18 + 1024 * Z.of_nat fn + reg) = (fn, reg, true).
Proof.
  intros F R. unfold us_mgmt_addr. change 0x7f with (Z.ones 7). change 0x3ff with (Z.ones 10). rewrite !Z.land_ones by lia. rewrite !Z.shiftr_div_pow2 by lia.
  assert (T : forall x, zbool (Z.land x (Z.shiftl 1 18)) = Z.testbit x 18).
  { intros x. rewrite Z.shiftl_1_l. rewrite Z.land_comm. destruct (Z.testbit x 18) eqn:B.
    - unfold zbool. destruct (Z.eqb_spec (Z.land (2 ^ 18) x) 0) as [E|]; [|reflexivity]. apply (f_equal (fun y => Z.testbit y 18)) in E. rewrite Z.land_spec, B, Z.bits_0 in E. discriminate.
    - replace (Z.land (2 ^ 18) x) with 0; [reflexivity|]. symmetry. apply Z.bits_inj'. intros n Hn. rewrite Z.land_spec, Z.bits_0, Z.pow2_bits_eqb by lia.
      destruct (Z.eqb_spec 18 n) as [<-|]; [rewrite B; reflexivity|reflexivity]. }
  rewrite !T. rewrite !Z.testbit_odd, !Z.shiftr_div_pow2 by lia. change (2 ^ 10) with 1024. change (2 ^ 7) with 128. change (2 ^ 18) with 262144.
  split; repeat (apply f_equal2); try lia.
  - replace ((1024 * Z.of_nat fn + reg) / 262144) with 0 by lia. reflexivity.
  - replace ((262144 + 1024 * Z.of_nat fn + reg) / 262144) with 1 by lia. reflexivity.
Qed.

(** A write and then a read of the same register. *)
Lemma nth_write k g : forall l f, nth_error l k = Some f -> nth_error (write_nth k g l) k = Some (g f).
Proof. induction k as [|k IH]; intros [|x l] f E; try discriminate; [injection E as ->; reflexivity|exact (IH l f E)]. Qed.
Theorem write_read fns rd k f reg data be v rw w1c exc i r a b c d a' b' c' d' :
  nth_error fns k = Some f -> 0 <= be < 16 -> ep_read f reg = Ok (Some v) -> cfg_masks ep_rw ep_w1c (tab [(3, 0x40000000)]) f reg = Some (rw, w1c, exc) ->
  requests i = true -> mi_read i = false -> mi_int i = false -> mi_fn i = k -> mi_reg i = reg -> mi_data i = data -> mi_be i = be ->
  mi_read r = true -> mi_int r = false -> mi_fn r = k -> mi_reg r = reg ->
  exists v' fns', mg_run (flat_map seg_events [SAccess i ([], a) ([], b) ([], c) ([], d); SAccess r ([], a') ([], b') ([], c') ([], d')]) (mkMst MIdle false rd fns) =
      ([(false, rd); (false, rd); (false, rd); (true, rd); (false, rd); (false, rd); (false, rd); (false, rd); (true, v'); (false, v')], mkMst MIdle false v' fns') /\
    (forall j, 0 <= j -> Z.testbit exc j = false -> Z.testbit v' j = upd_bit rw w1c be data v j) /\
    (forall m, m <> k -> nth_error fns' m = nth_error fns m).
Proof.
  intros N B R M Q I1 I2 I3 I4 I5 I6 R1 R2 R3 R4.
  destruct (ep_follow f reg data be reg v rw w1c exc B R M) as (v' & E & _ & U). rewrite Z.eqb_refl in U.
  exists v', (write_nth k (ep_write reg data be) fns). split; [|split; [exact U|]].
  - apply mgmt_ok.
    + repeat constructor; cbn [seg_ok]; [exact Q|unfold requests; rewrite R1; reflexivity].
    + cbn [segs_do fst snd apply_others fold_left]. unfold access_value, access_fns. rewrite I1, I2, I3, I4, I5, I6, R1, R2, R3, R4, N. cbn [orb].
      rewrite (nth_write k _ fns f N), E. reflexivity.
  - intros m Hm. clear - Hm. revert fns m Hm. induction k as [|k IH]; intros [|x l] m Hm; try reflexivity; destruct m as [|m]; try reflexivity; try contradiction (Hm eq_refl); cbn [write_nth nth_error].
    apply IH. congruence.
Qed.

Theorem mgmt_dead fns rd i a b c es : requests i = true -> mi_int i = false -> nth_error fns (mi_fn i) = None ->
  exists s', mg_run ([Edge i; Edge a; Edge b; Edge c] ++ es) (mkMst MIdle false rd fns) = (repeat (false, rd) (4 + edges es), s').
Proof.
  intros Q I N. destruct (dead es IndexError false rd fns) as (f' & D).
  assert (E1 : mg_edge i (mkMst MIdle false rd fns) = mkMst (MWait 0 i) false rd fns) by (unfold mg_edge; cbn [mg_ph mg_done mg_rdata mg_fns]; unfold requests in Q; rewrite Q; reflexivity).
  assert (E2 : mg_edge a (mkMst (MWait 0 i) false rd fns) = mkMst (MWait 1 i) false rd fns) by reflexivity.
  assert (E3 : mg_edge b (mkMst (MWait 1 i) false rd fns) = mkMst (MWait 2 i) false rd fns) by reflexivity.
  assert (E4 : mg_edge c (mkMst (MWait 2 i) false rd fns) = mkMst (MDead IndexError) false rd fns).
  { unfold mg_edge. cbn [mg_ph Nat.eqb]. unfold mg_access. cbn [mg_done mg_rdata mg_fns]. rewrite I, N. reflexivity. }
  eexists. cbn [app mg_run]. rewrite E1, E2, E3, E4, D. reflexivity.
Qed.
