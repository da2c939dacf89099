(** Interrupts. *)
From Verif Require Import Base BaseProofs Bits ModelUtils ModelTlp ModelRegion ModelCompleter ModelTags ModelAttrs ModelCaps ModelCapList ModelConfig ModelFunction ModelHost
  ModelPci ModelMsi SpecRegs SpecConfig SpecHost SpecMsi ProofsUtils ProofsMem ProofsRegs ProofsCaps ProofsCapFn ProofsConfig ProofsConfigTop ProofsHost ProofsBar ProofsProbe.

(** ** Capability registers through the host *)
Definition kind_of (d : mdev) : Prop := exists ms, In (d_rd d, d_wr d, ms) cfg_kinds.
Lemma kind_space d : kind_of d -> In (d_rd d, d_wr d) SpecCapFn.spaces.
Proof. intros [ms [E | [E | [E | []]]]]; injection E as <- <- _; [left | right; left | right; right; left]; reflexivity. Qed.
(** From [f] to [f'] only the attributes of object [i] have changed, to [a]. *)
Record stepc (d : mdev) (f f' : fnc) (i : nat) (a : attrs) : Prop := {
  sc_id : at_id (d_id d) f';
  sc_owner : forall r, owner f' r = owner f r;
  sc_heap : forall j, f_heap f' j = if Nat.eqb j i then c_set_attr a (f_heap f i) else f_heap f j
}.
Lemma stepc_trans d f f' f'' i a b : stepc d f f' i a -> stepc d f' f'' i b -> stepc d f f'' i b.
Proof.
  intros [A1 A2 A3] [B1 B2 B3]. constructor; [exact B1|intros; rewrite B2; apply A2|]. intros j. rewrite B3, !A3, Nat.eqb_refl. destruct (Nat.eqb j i); reflexivity.
Qed.
Lemma set_own c : c_set_attr (c_attr c) c = c.
Proof. destruct c; reflexivity. Qed.
Lemma stepc_id d f i : at_id (d_id d) f -> stepc d f (with_id (d_id d) f) i (c_attr (f_heap f i)).
Proof.
  intros I. constructor; [split; reflexivity|reflexivity|]. intros j. cbn [with_id f_heap]. destruct (Nat.eqb_spec j i) as [->|]; [rewrite set_own|]; reflexivity.
Qed.
Lemma stepc_attr d f f' i a : stepc d f f' i a -> c_attr (f_heap f' i) = a.
Proof. intros [_ _ H]. rewrite H, Nat.eqb_refl. reflexivity. Qed.
Lemma stepc_cap d f f' i a j : stepc d f f' i a -> off (f_heap f' j) = off (f_heap f j) /\ c_kind (f_heap f' j) = c_kind (f_heap f j)
  /\ c_next (f_heap f' j) = c_next (f_heap f j) /\ c_id (f_heap f' j) = c_id (f_heap f j) /\ (j <> i -> f_heap f' j = f_heap f j).
Proof.
  intros [_ _ H]. rewrite H. destruct (Nat.eqb_spec j i) as [->|N]; [|repeat split]. split; [reflexivity|]. split; [reflexivity|]. split; [reflexivity|].
  split; [reflexivity|]. intros X; congruence.
Qed.
Lemma stepc_placed d f f' i a o k n j : stepc d f f' i a -> placed f o k n j -> placed f' o k n j.
Proof.
  intros S (P1 & P2 & P3 & P4). destruct (stepc_cap _ _ _ _ _ j S) as (A & B & _). unfold placed. rewrite A, B. split; [exact P1|].
  split; [exact P2|]. split; [exact P3|]. intros r Hr. rewrite (sc_owner _ _ _ _ _ S). apply P4. exact Hr.
Qed.

Section Host.
Variable d : mdev.
Hypothesis K : kind_of d.
Lemma SP : In (d_rd d, d_wr d) SpecCapFn.spaces. Proof. exact (kind_space d K). Qed.
Lemma placed_read f o k n i r : placed f o k n i -> 0 <= r < n -> d_rd d f (o / 4 + r) = cap_read (f_heap f i) r.
Proof.
  intros (P1 & P2 & P3 & P4) Hr. replace (o / 4 + r) with (off (f_heap f i) + r) by lia. rewrite (read_high _ _ _ _ SP) by lia. rewrite P4 by exact Hr.
  f_equal. lia.
Qed.
Lemma placed_write f o k n i r x be : at_id (d_id d) f -> placed f o k n i -> 0 <= r < n ->
  stepc d f (d_wr d (o / 4 + r) x be (with_id (d_id d) f)) i (kind_write k r x be (c_attr (f_heap f i))).
Proof.
  intros I (P1 & P2 & P3 & P4) Hr. replace (o / 4 + r) with (off (f_heap f i) + r) by lia. set (f0 := with_id (d_id d) f).
  pose proof K as [ms W]. pose proof (kinds_wr_id _ _ _ W) as WI. constructor.
  - split; rewrite WI; reflexivity.
  - intros q. rewrite (owner_wr _ _ _ _ _ _ _ SP). reflexivity.
  - intros j. rewrite (heap_wr _ _ _ _ _ _ j SP). change (owner f0) with (owner f). rewrite P4 by exact Hr. change (f_heap f0) with (f_heap f).
    replace (off (f_heap f i) + r - off (f_heap f i)) with r by lia. unfold cap_write. rewrite P3. reflexivity.
Qed.
Lemma cap_rd_dword id a r i k n v f t : placed f (d_co d id) k n i -> a = 4 * r -> 0 <= r < n -> at_id (d_id d) f -> cap_read (f_heap f i) r = Ok (Some v) ->
  0 <= v < 2 ^ 32 -> cap_read_dword (d_cr d) (d_co d) id a (f, t) = Ok ((with_id (d_id d) f, t), v).
Proof.
  intros P -> Hr I R V. unfold cap_read_dword, zbool. pose proof P as (P1 & P2 & P3 & P4). replace (d_co d id =? 0) with false by lia. cbn [negb].
  pose proof K as [ms W]. pose proof (placed_read _ _ _ _ _ r P Hr) as PR. rewrite R in PR.
  unfold cfg_read_dword, d_cr. cbn [fst snd].
  destruct (host_read _ _ _ (d_tg d) (d_crs d) (d_id d) (4 * r + d_co d id) 4 f W ltac:(lia) I) as (b & -> & L & B).
  { intros q Hq. assert (q = d_co d id / 4 + r) by lia. subst q. exists v. auto. }
  cbn [bind Z.eqb]. do 2 f_equal. apply from_le_bytes_nth; [unfold zlen in L; lia|exact V|]. intros j Hj. specialize (B j Hj). unfold cfg_byte in B.
  replace ((4 * r + d_co d id + j) / 4) with (d_co d id / 4 + r) in B by lia. replace ((4 * r + d_co d id + j) mod 4) with j in B by lia.
  rewrite PR in B. injection B as <-. reflexivity.
Qed.
Lemma from_le_hi l v : length l = 2%nat -> 0 <= v < 2 ^ 32 -> (forall k, 0 <= k < 2 -> nth (Z.to_nat k) l 0 = (v / 2 ^ (8 * (k + 2))) mod 256) ->
  from_le l = v / 65536.
Proof.
  intros L V H. destruct l as [|a [|b [|]]]; try discriminate L. pose proof (H 0 ltac:(lia)) as H0. pose proof (H 1 ltac:(lia)) as H1.
  change (a = (v / 65536) mod 256) in H0. change (b = (v / 16777216) mod 256) in H1. clear H L. cbn [from_le]. change (2 ^ 32) with 4294967296 in V. lia.
Qed.
Lemma cap_rd_ctrl id i k n v f t : placed f (d_co d id) k n i -> 1 <= n -> at_id (d_id d) f -> cap_read (f_heap f i) 0 = Ok (Some v) -> 0 <= v < 2 ^ 32 ->
  cap_read_word (d_cr d) (d_co d) id 2 (f, t) = Ok ((with_id (d_id d) f, t), v / 65536).
Proof.
  intros P Hn I R V. unfold cap_read_word, zbool. pose proof P as (P1 & P2 & P3 & P4). replace (d_co d id =? 0) with false by lia. cbn [negb].
  pose proof K as [ms W]. pose proof (placed_read _ _ _ _ _ 0 P ltac:(lia)) as PR. rewrite R, Z.add_0_r in PR.
  unfold cfg_read_word, d_cr. cbn [fst snd].
  destruct (host_read _ _ _ (d_tg d) (d_crs d) (d_id d) (2 + d_co d id) 2 f W ltac:(lia) I) as (b & -> & L & B).
  { intros q Hq. assert (q = d_co d id / 4) by lia. subst q. exists v. auto. }
  cbn [bind Z.eqb]. do 2 f_equal. apply from_le_hi; [unfold zlen in L; lia|exact V|]. intros j Hj. specialize (B j Hj). unfold cfg_byte in B.
  replace ((2 + d_co d id + j) / 4) with (d_co d id / 4) in B by lia. replace ((2 + d_co d id + j) mod 4) with (j + 2) in B by lia.
  rewrite PR in B. injection B as <-. reflexivity.
Qed.
Lemma cap_wr_dword id a r i k n v f t : placed f (d_co d id) k n i -> a = 4 * r -> 0 <= r < n -> at_id (d_id d) f -> 0 <= v < 2 ^ 32 ->
  exists f' x, cap_write_dword (d_cw d) (d_co d) id a v (f, t) = Ok (f', t) /\ (forall j, 0 <= j < 32 -> Z.testbit x j = Z.testbit v j) /\
    stepc d f f' i (kind_write k r x 15 (c_attr (f_heap f i))).
Proof.
  intros P -> Hr I V. unfold cap_write_dword, zbool. pose proof P as (P1 & P2 & P3 & P4). replace (d_co d id =? 0) with false by lia. cbn [negb].
  destruct (write_dword (d_rd d) (d_wr d) (d_tg d) (d_id d) (d_co d id / 4 + r) v f I V) as (x & E & X).
  replace (4 * (d_co d id / 4 + r)) with (4 * r + d_co d id) in E by lia. eexists _, x. split; [|split; [exact X|apply (placed_write _ _ _ _ _ _ _ _ I P Hr)]].
  unfold cfg_write_dword, d_cw in *. cbn [fst snd]. destruct (to_bytes 4 v); [|discriminate E]. cbn [bind] in *. rewrite E. reflexivity.
Qed.
Lemma cap_wr_ctrl id i k n v f t : placed f (d_co d id) k n i -> 1 <= n -> at_id (d_id d) f -> 0 <= v < 65536 ->
  exists f' x, cap_write_word (d_cw d) (d_co d) id 2 v (f, t) = Ok (f', t) /\ (forall j, 0 <= j < 16 -> Z.testbit x (j + 16) = Z.testbit v j) /\
    stepc d f f' i (kind_write k 0 x 12 (c_attr (f_heap f i))).
Proof.
  intros P Hn I V. unfold cap_write_word, zbool. pose proof P as (P1 & P2 & P3 & P4). replace (d_co d id =? 0) with false by lia. cbn [negb].
  unfold cfg_write_word, to_bytes. replace ((0 <=? v) && (v <? 256 ^ Z.of_nat 2)) with true by (change (256 ^ Z.of_nat 2) with 65536; lia). cbn [bind].
  assert (M : (2 + d_co d id) mod 4 = 2) by lia. assert (Q : (2 + d_co d id) / 4 = d_co d id / 4) by lia.
  destruct (write_one (d_rd d) (d_wr d) (d_tg d) (d_id d) (2 + d_co d id) (le_bytes 2 v) f I) as (x & be & E & B1 & B2 & X).
  { discriminate. } { rewrite M. cbn. lia. } { apply le_bytes_ok. }
  rewrite M, Q in *. change (zlen (le_bytes 2 v)) with 2 in *. exists (d_wr d (d_co d id / 4) x 12 (with_id (d_id d) f)), x.
  assert (be = 12) as ->.
  { apply Z.bits_inj'. intros j Hj. rewrite B2 by lia. destruct (Z.ltb_spec j 4).
    + assert (C : j = 0 \/ j = 1 \/ j = 2 \/ j = 3) by lia. destruct C as [-> | [-> | [-> | ->]]]; reflexivity.
    + rewrite (testbit_high 12 4) by lia. lia. }
  split; [unfold d_cw; cbn [fst snd]; rewrite E; reflexivity|]. split.
  - intros j Hj. rewrite X by lia. rewrite le_bytes_nth by lia. change 256 with (2 ^ 8). rewrite Z.mod_pow2_bits_low by lia. rewrite Z.div_pow2_bits by lia. f_equal. lia.
  - pose proof (placed_write _ _ _ _ _ 0 x 12 I P ltac:(lia)) as H. rewrite Z.add_0_r in H. exact H.
Qed.
End Host.

(** ** Message control *)
Lemma msi_ctrl c : c_kind c = KMsi -> exists v, cap_read c 0 = Ok (Some v) /\ 0 <= v < 2 ^ 32 /\ Z.testbit v 16 = zbool (c_attr c ms_msi_enable) /\
  Z.land (Z.shiftr v 17) 7 = Z.land (c_attr c ms_msi_multiple_message_capable) 7 /\
  zbool (Z.land (Z.shiftr v 23) 1) = zbool (c_attr c ms_msi_64bit_address_capable).
Proof.
  intros E. unfold cap_read. rewrite E. cbn [is_ext kind_read Z.eqb]. unfold msc_read. cbn [Z.eqb]. cbv zeta.
  eexists. split; [reflexivity|]. generalize (c_attr c ms_msi_multiple_message_capable) (c_attr c ms_msi_multiple_message_enable) (c_next c) (c_id c).
  intros a b e g. split; [bits|]. split; [bits|]. split; [bits|].
  destruct (zbool (c_attr c ms_msi_64bit_address_capable)).
  - match goal with |- zbool ?x = true => replace x with 1 by (symmetry; bits) end. reflexivity.
  - match goal with |- zbool ?x = false => replace x with 0 by (symmetry; bits) end. reflexivity.
Qed.
Lemma msix_ctrl c : c_kind c = KMsix -> exists v, cap_read c 0 = Ok (Some v) /\ 0 <= v < 2 ^ 32 /\ Z.testbit v 31 = zbool (c_attr c mx_msix_enable) /\
  Z.land (Z.shiftr v 16) 0x7ff = Z.land (c_attr c mx_msix_table_size) 0x7ff.
Proof.
  intros E. unfold cap_read. rewrite E. cbn [is_ext kind_read Z.eqb]. unfold mxc_read. cbn [Z.eqb]. cbv zeta.
  eexists. split; [reflexivity|]. generalize (c_attr c mx_msix_table_size) (c_next c) (c_id c).
  intros a e g. split; [bits|]. split; bits.
Qed.
Lemma ctrl_bit v b (en : bool) : 0 <= v < 2 ^ 32 -> 0 <= b < 16 ->
  let old := v / 65536 in let c := if en then Z.lor old (2 ^ b) else Z.land old (Z.lnot (2 ^ b)) in
  0 <= c < 65536 /\ Z.testbit c b = en /\ (forall j, 0 <= j -> j <> b -> Z.testbit c j = Z.testbit v (j + 16)) /\ (c = old <-> Z.testbit v (b + 16) = en).
Proof.
  intros V B old c. assert (O : forall j, 0 <= j -> Z.testbit old j = Z.testbit v (j + 16)) by (intros j Hj; unfold old; change 65536 with (2 ^ 16); apply Z.div_pow2_bits; lia).
  assert (C : forall j, 0 <= j -> Z.testbit c j = if j =? b then en else Z.testbit v (j + 16)).
  { intros j Hj. unfold c. destruct en; rewrite ?Z.lor_spec, ?Z.land_spec, ?Z.lnot_spec, O, Z.pow2_bits_eqb by lia; rewrite (Z.eqb_sym b j); destruct (j =? b), (Z.testbit v _); reflexivity. }
  assert (R : 0 <= c < 65536).
  { change 65536 with (2 ^ 16). assert (R0 : 0 <= c).
    { unfold c. assert (0 <= old) by (unfold old; lia). destruct en; [apply Z.lor_nonneg; lia|apply Z.land_nonneg; lia]. }
    split; [exact R0|]. rewrite <- (Z.mod_small c (2 ^ 17)) by (split; [exact R0|]; destruct (Z.lt_ge_cases c (2 ^ 17)) as [|GE]; [assumption|];
      exfalso; pose proof (C (Z.log2 c) ltac:(apply Z.log2_nonneg)) as X; rewrite Z.bit_log2 in X by lia; assert (17 <= Z.log2 c) by (apply Z.log2_le_pow2; lia);
      replace (Z.log2 c =? b) with false in X by lia; rewrite (testbit_high v 32) in X by lia; discriminate).
    destruct (Z.lt_ge_cases (c mod 2 ^ 17) (2 ^ 16)) as [|GE]; [assumption|]. exfalso.
    assert (T : Z.testbit c 16 = true).
    { rewrite <- (Z.mod_pow2_bits_low c 17 16) by lia. assert (0 <= c mod 2 ^ 17 < 2 ^ 17) by (apply Z.mod_pos_bound; lia).
      assert (L : Z.log2 (c mod 2 ^ 17) = 16) by (apply Z.log2_unique; lia). rewrite <- L. apply Z.bit_log2. lia. }
    rewrite C in T by lia. replace (16 =? b) with false in T by lia. rewrite (testbit_high v 32) in T by lia. discriminate. }
  split; [exact R|]. split; [rewrite C, Z.eqb_refl by lia; reflexivity|]. split; [intros j Hj N; rewrite C by lia; replace (j =? b) with false by lia; reflexivity|].
  split; intros X.
  - rewrite <- O by lia. rewrite <- X, C, Z.eqb_refl by lia. reflexivity.
  - apply Z.bits_inj'. intros j Hj. rewrite C, O by lia. destruct (Z.eqb_spec j b) as [->|]; [symmetry; exact X|reflexivity].
Qed.

Section Enable.
Variable d : mdev.
Hypothesis K : kind_of d.
Lemma msi_enable i n en f t : placed f (d_co d MSI_ID) KMsi n i -> 1 <= n -> at_id (d_id d) f ->
  exists f' a, set_enable (d_cr d) (d_cw d) (d_co d) MSI_ID 1 en (f, t) = Ok (f', t) /\ stepc d f f' i a /\ zbool (a ms_msi_enable) = en /\
    (forall x, x <> ms_msi_enable -> x <> ms_msi_multiple_message_enable -> x <> ms_msi_extended_message_data_enable -> a x = c_attr (f_heap f i) x) /\
    (zbool (c_attr (f_heap f i) ms_msi_enable) = en -> a = c_attr (f_heap f i)).
Proof.
  intros P Hn I. pose proof P as (_ & _ & P3 & _). destruct (msi_ctrl _ P3) as (v & R & V & B & _). unfold set_enable.
  rewrite (cap_rd_ctrl d K MSI_ID i KMsi n v f t P Hn I R V). cbn [bind]. cbv zeta. change 1 with (2 ^ 0).
  destruct (ctrl_bit v 0 en V ltac:(lia)) as (C1 & C2 & _ & C4). set (c := if en then _ else _) in *. change (0 + 16) with 16 in C4. rewrite B in C4.
  pose proof (stepc_id d f i I) as S0. destruct (Z.eqb_spec c (v / 65536)) as [E|N]; cbn [negb].
  - exists (with_id (d_id d) f), (c_attr (f_heap f i)). split; [reflexivity|]. split; [exact S0|]. split; [apply C4; exact E|]. split; reflexivity.
  - destruct (cap_wr_ctrl d K MSI_ID i KMsi n c (with_id (d_id d) f) t) as (f' & x & W & X & S1); [exact P|exact Hn|split; reflexivity|exact C1|].
    rewrite W. eexists f', _. split; [reflexivity|]. split; [exact (stepc_trans _ _ _ _ _ _ _ S0 S1)|]. cbn [kind_write with_id f_heap]. unfold msc_write. cbn [Z.eqb].
    change (bit 12 2) with true. assert (XB : bit x 16 = en) by (rewrite bit_testbit by lia; rewrite <- C2; apply (X 0); lia).
    split; [|split].
    + cbv [when]. destruct (zbool (aset _ _ _ _)); [rewrite !aset_ne by discriminate|rewrite aset_ne by discriminate]; rewrite aset_eq, zbool_b2z; exact XB.
    + intros y N1 N2 N3. cbv [when]. destruct (zbool (aset _ _ _ _)); rewrite !aset_ne by assumption; reflexivity.
    + intros E. exfalso. apply N, C4, E.
Qed.
Lemma msix_enable i n en f t : placed f (d_co d MSIX_ID) KMsix n i -> 1 <= n -> at_id (d_id d) f ->
  exists f' a, set_enable (d_cr d) (d_cw d) (d_co d) MSIX_ID 0x8000 en (f, t) = Ok (f', t) /\ stepc d f f' i a /\ zbool (a mx_msix_enable) = en /\
    (forall x, x <> mx_msix_enable -> x <> mx_msix_function_mask -> a x = c_attr (f_heap f i) x) /\
    (zbool (c_attr (f_heap f i) mx_msix_enable) = en -> a = c_attr (f_heap f i)).
Proof.
  intros P Hn I. pose proof P as (_ & _ & P3 & _). destruct (msix_ctrl _ P3) as (v & R & V & B & _). unfold set_enable.
  rewrite (cap_rd_ctrl d K MSIX_ID i KMsix n v f t P Hn I R V). cbn [bind]. cbv zeta. change 0x8000 with (2 ^ 15).
  destruct (ctrl_bit v 15 en V ltac:(lia)) as (C1 & C2 & _ & C4). set (c := if en then _ else _) in *. change (15 + 16) with 31 in C4. rewrite B in C4.
  pose proof (stepc_id d f i I) as S0. destruct (Z.eqb_spec c (v / 65536)) as [E|N]; cbn [negb].
  - exists (with_id (d_id d) f), (c_attr (f_heap f i)). split; [reflexivity|]. split; [exact S0|]. split; [apply C4; exact E|]. split; reflexivity.
  - destruct (cap_wr_ctrl d K MSIX_ID i KMsix n c (with_id (d_id d) f) t) as (f' & x & W & X & S1); [exact P|exact Hn|split; reflexivity|exact C1|].
    rewrite W. eexists f', _. split; [reflexivity|]. split; [exact (stepc_trans _ _ _ _ _ _ _ S0 S1)|]. cbn [kind_write with_id f_heap]. unfold mxc_write. cbn [Z.eqb].
    change (bit 12 3) with true. assert (XB : bit x 31 = en) by (rewrite bit_testbit by lia; rewrite <- C2; apply (X 15); lia).
    split; [|split].
    + cbv [when]. rewrite aset_eq, zbool_b2z; exact XB.
    + intros y N1 N2. cbv [when]. rewrite !aset_ne by assumption; reflexivity.
    + intros E. exfalso. apply N, C4, E.
Qed.
End Enable.

(** ** Programming the MSI registers *)
Definition like (n x v : Z) : Prop := forall j, 0 <= j < n -> Z.testbit x j = Z.testbit v j.
Lemma bmu_low c x v : 0 <= c < 2 ^ 32 -> 0 <= v < 2 ^ 32 -> like 32 x v -> byte_mask_update c 15 x (-1) = v.
Proof.
  intros C V L. apply Z.bits_inj'. intros j Hj. rewrite byte_mask_update_spec by lia. rewrite Z.bits_m1, andb_true_r by lia. destruct (Z.ltb_spec j 32).
  - replace (Z.testbit 15 (j / 8)) with true; [apply L; lia|]. change 15 with (Z.ones 4). rewrite Z.testbit_ones_nonneg by lia. lia.
  - replace (Z.testbit 15 (j / 8)) with false; [rewrite !(testbit_high _ 32) by lia; reflexivity|]. symmetry. apply (testbit_high 15 4); lia.
Qed.
Lemma bmu_word c x v n m : like n x v -> 0 <= n -> 0 <= v -> m = Z.ones (n / 8) -> n mod 8 = 0 -> Z.land (byte_mask_update c m x (-1)) (Z.ones n) = v mod 2 ^ n.
Proof.
  intros L N V -> D. apply Z.bits_inj'. intros j Hj. assert (0 <= n / 8) by lia.
  rewrite Z.land_spec, byte_mask_update_spec by (try lia; rewrite Z.ones_equiv; pose proof (Z.pow_pos_nonneg 2 (n / 8)); lia).
  rewrite Z.bits_m1, andb_true_r, !Z.testbit_ones_nonneg by lia. destruct (Z.ltb_spec j n).
  - replace (j / 8 <? n / 8) with true by lia. rewrite andb_true_r, Z.mod_pow2_bits_low by lia. apply L. lia.
  - rewrite andb_false_r, Z.mod_pow2_bits_high by lia. reflexivity.
Qed.
Lemma bmu_high x : like 32 x 0 -> byte_mask_update msi_base (Z.shiftl 15 4) (Z.shiftl x 32) (-1) = msi_base.
Proof.
  intros L. apply Z.bits_inj'. intros j Hj. rewrite byte_mask_update_spec by (cbn; lia). rewrite Z.bits_m1, andb_true_r by lia.
  destruct (Z.testbit (Z.shiftl 15 4) (j / 8)) eqn:E; [|reflexivity]. rewrite Z.shiftl_spec in E by lia. rewrite Z.shiftl_spec by lia.
  assert (A : 4 <= j / 8 < 8).
  { destruct (Z.lt_ge_cases (j / 8) 4); [rewrite Z.testbit_neg_r in E by lia; discriminate|]. destruct (Z.lt_ge_cases (j / 8) 8); [lia|].
    rewrite (testbit_high 15 4) in E by lia. discriminate. }
  rewrite L, Z.bits_0 by lia. symmetry. apply (testbit_high _ 32); unfold msi_base; lia.
Qed.
(** The registers hold the messages from [n] on. *)
Definition programmed (a : attrs) (n : Z) : Prop :=
  zbool (a ms_msi_enable) = true /\ a ms_msi_multiple_message_enable = a ms_msi_multiple_message_capable /\ a ms_msi_message_address = msi_base /\
  if zbool (a ms_msi_extended_message_data_capable) then zbool (a ms_msi_extended_message_data_enable) = true /\ a ms_msi_message_data = n
  else a ms_msi_message_data = n mod 65536.
(** What a driver does not change. *)
Definition msi_same (a b : attrs) : Prop :=
  a ms_msi_multiple_message_capable = b ms_msi_multiple_message_capable /\ a ms_msi_64bit_address_capable = b ms_msi_64bit_address_capable /\
  a ms_msi_extended_message_data_capable = b ms_msi_extended_message_data_capable.
Lemma wr_addr a x : 0 <= a ms_msi_message_address < 2 ^ 32 -> like 32 x msi_base -> msc_write 1 x 15 a = aset ms_msi_message_address msi_base a.
Proof.
  intros A L. unfold msc_write. cbn [Z.eqb]. cbv zeta. rewrite (bmu_low _ _ msi_base); [reflexivity|exact A|unfold msi_base; lia|].
  intros j Hj. rewrite Z.land_spec, L by exact Hj. rewrite <- Z.land_spec. reflexivity.
Qed.
Lemma wr_upper a x : a ms_msi_message_address = msi_base -> zbool (a ms_msi_64bit_address_capable) = true -> like 32 x 0 ->
  msc_write 2 x 15 a = aset ms_msi_message_address msi_base a.
Proof. intros A B L. unfold msc_write. cbn [Z.eqb]. rewrite B. cbn [andb]. cbv zeta. rewrite A, bmu_high by exact L. reflexivity. Qed.
Lemma wr_data a x n (r : Z) : r = (if zbool (a ms_msi_64bit_address_capable) then 3 else 2) -> 0 <= n < 2 ^ 32 -> like 32 x n ->
  (forall y, y <> ms_msi_message_data -> msc_write r x 15 a y = a y) /\
  msc_write r x 15 a ms_msi_message_data = if zbool (a ms_msi_extended_message_data_capable) then n else n mod 65536.
Proof.
  intros -> N L. unfold msc_write.
  assert (E : forall (b : bool), (if b then 3 else 2) =? 0 = false /\ (if b then 3 else 2) =? 1 = false /\ ((if b then 3 else 2) =? 2) && b = false) by (intros []; auto).
  destruct (E (zbool (a ms_msi_64bit_address_capable))) as (-> & -> & ->). rewrite Z.eqb_refl. cbv zeta. unfold when. split.
  - intros y Hy. destruct (zbool _); apply aset_ne; exact Hy.
  - destruct (zbool (a ms_msi_extended_message_data_capable)); rewrite aset_eq.
    + change 0xffffffff with (Z.ones 32). rewrite (bmu_word _ _ n 32) by (first [exact L | reflexivity | lia]). apply Z.mod_small. exact N.
    + change (Z.land 15 3) with 3. change 0xffff with (Z.ones 16). apply (bmu_word _ _ n 16); try reflexivity; try lia. intros j Hj. apply L. lia.
Qed.
Lemma wr_control a x (v : Z) : like 32 x v -> Z.testbit v 16 = true -> 0 <= a ms_msi_multiple_message_capable <= 5 ->
  Z.land (Z.shiftr v 20) 7 = Z.land (a ms_msi_multiple_message_capable) 7 ->
  let b := msc_write 0 x 15 a in
  zbool (b ms_msi_enable) = true /\ b ms_msi_multiple_message_enable = a ms_msi_multiple_message_capable /\
  (zbool (a ms_msi_extended_message_data_capable) = true -> zbool (b ms_msi_extended_message_data_enable) = true) /\
  forall y, y <> ms_msi_enable -> y <> ms_msi_multiple_message_enable -> y <> ms_msi_extended_message_data_enable -> b y = a y.
Proof.
  intros L T C M b. unfold b, msc_write. cbn [Z.eqb]. change (bit 15 2) with true. cbv zeta. unfold when.
  assert (XB : bit x 16 = true) by (rewrite bit_testbit by lia; rewrite L by lia; exact T). rewrite XB.
  assert (XM : Z.land (Z.shiftr x 20) 7 = a ms_msi_multiple_message_capable).
  { transitivity (Z.land (Z.shiftr v 20) 7).
    - apply Z.bits_inj'. intros j Hj. rewrite !Z.land_spec, !Z.shiftr_spec by lia. destruct (Z.ltb_spec j 3); [rewrite L by lia; reflexivity|].
      rewrite (testbit_high 7 3) by lia. rewrite !andb_false_r. reflexivity.
    - rewrite M. change 7 with (Z.ones 3). rewrite Z.land_ones by lia. apply Z.mod_small. lia. }
  rewrite XM. rewrite !(aset_ne ms_msi_extended_message_data_capable) by discriminate.
  destruct (zbool (a ms_msi_extended_message_data_capable)).
  - split; [|split; [|split]].
    + rewrite !aset_ne by discriminate. rewrite aset_eq. reflexivity.
    + rewrite aset_ne by discriminate. rewrite aset_eq. reflexivity.
    + intros _. rewrite aset_eq. reflexivity.
    + intros y N1 N2 N3. rewrite !aset_ne by assumption. reflexivity.
  - split; [|split; [|split]].
    + rewrite !aset_ne by discriminate. rewrite aset_eq. reflexivity.
    + rewrite aset_eq. reflexivity.
    + discriminate.
    + intros y N1 N2 N3. rewrite !aset_ne by assumption. reflexivity.
Qed.

(** ** Allocating vectors *)
Definition vectors_for (n : Z) (q : irq) (r : msi_region) : list vec * msi_region :=
  match q_vectors q with [] => alloc_vectors n r | _ => (q_vectors q, r) end.
Lemma like_refl n v : like n v v. Proof. intros j _. reflexivity. Qed.

Section Init.
Variable d : mdev.
Hypothesis K : kind_of d.
Lemma wr_msi a r i v f t : placed f (d_co d MSI_ID) KMsi 4 i -> a = 4 * r -> 0 <= r < 4 -> at_id (d_id d) f -> 0 <= v < 2 ^ 32 ->
  exists f' x, cap_write_dword (d_cw d) (d_co d) MSI_ID a v (f, t) = Ok (f', t) /\ like 32 x v /\
    stepc d f f' i (msc_write r x 15 (c_attr (f_heap f i))).
Proof. intros P A R I V. exact (cap_wr_dword d K MSI_ID a r i KMsi 4 v f t P A R I V). Qed.
Lemma wr_over id a v s : 2 ^ 32 <= v -> exists e, cap_write_dword (d_cw d) (d_co d) id a v s = Err e.
Proof.
  intros V. unfold cap_write_dword, cfg_write_dword, to_bytes. replace ((0 <=? v) && (v <? 256 ^ Z.of_nat 4)) with false; [|change (256 ^ Z.of_nat 4) with (2 ^ 32); lia].
  cbn [bind]. destruct (zbool _); eexists; reflexivity.
Qed.
Lemma msi_init q r f t i vs r' v vs' : placed f (d_co d MSI_ID) KMsi 4 i -> at_id (d_id d) f ->
  0 <= c_attr (f_heap f i) ms_msi_multiple_message_capable <= 5 -> 0 <= c_attr (f_heap f i) ms_msi_message_address < 2 ^ 32 ->
  vectors_for 32 q r = (vs, r') -> vs = v :: vs' -> v_addr v = msi_base -> 0 <= v_data v ->
  if v_data v <? 2 ^ 32 then
    exists f' a, msi_capability_init (d_cr d) (d_cw d) (d_co d) q r (f, t) = Ok (mkIrq vs true (q_msix q), r', (f', t)) /\
      stepc d f f' i a /\ programmed a (v_data v) /\ msi_same a (c_attr (f_heap f i))
  else exists e, msi_capability_init (d_cr d) (d_cw d) (d_co d) q r (f, t) = Err e.
Proof.
  intros P I MC MA A VS VA VD0. unfold msi_capability_init, msi_set_enable.
  destruct (msi_enable d K i 4 false f t P ltac:(lia) I) as (f1 & a1 & -> & S1 & E1 & O1 & _). cbn [bind q_vectors q_msi q_msix].
  assert (Q : match q_vectors q with [] => let '(v0, r0) := alloc_vectors 32 r in (mkIrq v0 true (q_msix q), r0) | _ :: _ => (mkIrq (q_vectors q) true (q_msix q), r) end
    = (mkIrq vs true (q_msix q), r')).
  { unfold vectors_for in A. destruct (q_vectors q); [rewrite A; reflexivity|]. injection A as <- <-. reflexivity. }
  rewrite Q. clear Q. cbn [q_vectors]. pose proof (stepc_placed _ _ _ _ _ _ _ _ _ S1 P) as P1. pose proof (sc_id _ _ _ _ _ S1) as I1.
  pose proof (stepc_attr _ _ _ _ _ S1) as AT1. pose proof P1 as (_ & _ & K1 & _). destruct (msi_ctrl _ K1) as (c & R & CV & CB & CM & C6). rewrite AT1 in CB, CM, C6.
  rewrite (cap_rd_dword d K MSI_ID 0 0 i KMsi 4 c f1 t P1 eq_refl ltac:(lia) I1 R CV). cbn [bind]. cbv zeta. rewrite VS, VA. cbn [bind].
  change (Z.land msi_base 0xfffffffc) with msi_base. change (Z.land (Z.shiftr msi_base 32) 0xffffffff) with 0.
  set (f1' := with_id (d_id d) f1). pose proof (stepc_id d f1 i I1) as S1'. fold f1' in S1'. rewrite AT1 in S1'. pose proof (stepc_trans _ _ _ _ _ _ _ S1 S1') as T1.
  assert (MA1 : 0 <= a1 ms_msi_message_address < 2 ^ 32) by (rewrite O1 by discriminate; exact MA).
  destruct (wr_msi 4 1 i msi_base f1' t (stepc_placed _ _ _ _ _ _ _ _ _ S1' P1) eq_refl ltac:(lia) (sc_id _ _ _ _ _ S1') ltac:(unfold msi_base; lia)) as (f2 & x2 & -> & X2 & S2).
  rewrite (stepc_attr _ _ _ _ _ S1') in S2. rewrite (wr_addr _ _ MA1 X2) in S2. cbn [bind]. pose proof (stepc_trans _ _ _ _ _ _ _ T1 S2) as T2.
  set (a2 := aset ms_msi_message_address msi_base a1) in *.
  destruct (Z.ltb_spec (v_data v) (2 ^ 32)) as [VD1|VD1].
  2:{ rewrite C6. pose proof (stepc_placed _ _ _ _ _ _ _ _ _ T2 P) as P2. destruct (zbool (a1 ms_msi_64bit_address_capable)).
      - destruct (wr_msi 8 2 i 0 f2 t P2 eq_refl ltac:(lia) (sc_id _ _ _ _ _ S2) ltac:(lia)) as (f3 & x3 & -> & X3 & S3). cbn [bind].
        destruct (wr_over MSI_ID 12 (v_data v) (f3, t) VD1) as [e ->]. exists e. reflexivity.
      - destruct (wr_over MSI_ID 8 (v_data v) (f2, t) VD1) as [e ->]. exists e. reflexivity. }
  pose proof (conj VD0 VD1) as VD. clear VD0 VD1.
  assert (D : exists f3 a3, (if zbool (Z.land (Z.shiftr c 23) 1)
      then s <- cap_write_dword (d_cw d) (d_co d) MSI_ID 8 0 (f2, t);; cap_write_dword (d_cw d) (d_co d) MSI_ID 12 (v_data v) s
      else cap_write_dword (d_cw d) (d_co d) MSI_ID 8 (v_data v) (f2, t)) = Ok (f3, t) /\ stepc d f f3 i a3 /\
      (forall y, y <> ms_msi_message_data -> a3 y = a2 y) /\
      a3 ms_msi_message_data = if zbool (a2 ms_msi_extended_message_data_capable) then v_data v else v_data v mod 65536).
  { rewrite C6. assert (Z6 : a1 ms_msi_64bit_address_capable = a2 ms_msi_64bit_address_capable) by reflexivity. rewrite Z6.
    pose proof (stepc_placed _ _ _ _ _ _ _ _ _ T2 P) as P2. destruct (zbool (a2 ms_msi_64bit_address_capable)) eqn:E6.
    - destruct (wr_msi 8 2 i 0 f2 t P2 eq_refl ltac:(lia) (sc_id _ _ _ _ _ S2) ltac:(lia)) as (f3 & x3 & -> & X3 & S3). cbn [bind].
      rewrite (stepc_attr _ _ _ _ _ S2), wr_upper in S3 by (auto; reflexivity). pose proof (stepc_trans _ _ _ _ _ _ _ T2 S3) as T3.
      set (a3 := aset ms_msi_message_address msi_base a2) in *. pose proof (stepc_placed _ _ _ _ _ _ _ _ _ T3 P) as P3.
      destruct (wr_msi 12 3 i (v_data v) f3 t P3 eq_refl ltac:(lia) (sc_id _ _ _ _ _ S3) VD) as (f4 & x4 & -> & X4 & S4). rewrite (stepc_attr _ _ _ _ _ S3) in S4.
      eexists f4, _. split; [reflexivity|]. split; [exact (stepc_trans _ _ _ _ _ _ _ T3 S4)|].
      assert (R3 : 3 = if zbool (a3 ms_msi_64bit_address_capable) then 3 else 2) by (change (a3 ms_msi_64bit_address_capable) with (a2 ms_msi_64bit_address_capable); rewrite E6; reflexivity).
      destruct (wr_data a3 x4 (v_data v) 3 R3 VD X4) as [W1 W2]. split; [|exact W2].
      intros y Hy. rewrite W1 by exact Hy. unfold a3, a2, aset. destruct (Pos.eqb y _); reflexivity.
    - destruct (wr_msi 8 2 i (v_data v) f2 t P2 eq_refl ltac:(lia) (sc_id _ _ _ _ _ S2) VD) as (f3 & x3 & -> & X3 & S3). rewrite (stepc_attr _ _ _ _ _ S2) in S3.
      eexists f3, _. split; [reflexivity|]. split; [exact (stepc_trans _ _ _ _ _ _ _ T2 S3)|].
      assert (R2 : 2 = if zbool (a2 ms_msi_64bit_address_capable) then 3 else 2) by (rewrite E6; reflexivity).
      exact (wr_data a2 x3 (v_data v) 2 R2 VD X3). }
  destruct D as (f3 & a3 & -> & T3 & D1 & D2). cbn [bind]. pose proof (stepc_placed _ _ _ _ _ _ _ _ _ T3 P) as P3.
  set (m := Z.lor (Z.land (Z.lor c (Z.shiftl 1 16)) (Z.lnot (Z.shiftl 7 20))) (Z.shiftl (Z.land (Z.shiftr c 17) 7) 20)).
  assert (M1 : 0 <= m < 2 ^ 32) by (unfold m; clear - CV; bits). assert (M2 : Z.testbit m 16 = true) by (unfold m; clear; bits).
  assert (M3 : Z.land (Z.shiftr m 20) 7 = Z.land (Z.shiftr c 17) 7) by (unfold m; clear; bits). clearbody m.
  destruct (wr_msi 0 0 i m f3 t P3 eq_refl ltac:(lia) (sc_id _ _ _ _ _ T3) M1) as (f4 & x4 & -> & X4 & S4). rewrite (stepc_attr _ _ _ _ _ T3) in S4. cbn [bind].
  pose proof (stepc_trans _ _ _ _ _ _ _ T3 S4) as T4. pose proof (stepc_placed _ _ _ _ _ _ _ _ _ T4 P) as P4.
  assert (MC3 : a3 ms_msi_multiple_message_capable = c_attr (f_heap f i) ms_msi_multiple_message_capable).
  { rewrite D1 by discriminate. unfold a2. rewrite aset_ne by discriminate. apply O1; discriminate. }
  assert (MC1 : a1 ms_msi_multiple_message_capable = a3 ms_msi_multiple_message_capable) by (rewrite MC3; apply O1; discriminate).
  rewrite CM, MC1 in M3. rewrite <- MC3 in MC.
  destruct (wr_control a3 x4 m X4 M2 MC M3) as (W1 & W2 & W3 & W4).
  set (a4 := msc_write 0 x4 15 a3) in *. change (kind_write KMsi 0 x4 15 a3) with a4 in *.
  destruct (msi_enable d K i 4 true f4 t P4 ltac:(lia) (sc_id _ _ _ _ _ T4)) as (f5 & a5 & -> & S5 & _ & _ & E5). cbn [bind].
  rewrite (stepc_attr _ _ _ _ _ T4) in E5. specialize (E5 W1). subst a5. exists f5, a4. split; [reflexivity|]. split; [exact (stepc_trans _ _ _ _ _ _ _ T4 S5)|].
  assert (KEEP : forall y, y <> ms_msi_enable -> y <> ms_msi_multiple_message_enable -> y <> ms_msi_extended_message_data_enable ->
     y <> ms_msi_message_address -> y <> ms_msi_message_data -> a4 y = c_attr (f_heap f i) y).
  { intros y N1 N2 N3 N4 N5. rewrite W4, D1 by assumption. unfold a2. rewrite aset_ne by assumption. apply O1; assumption. }
  split; [|repeat split; apply KEEP; discriminate]. unfold programmed. split; [exact W1|]. split; [rewrite W2; symmetry; apply W4; discriminate|].
  split; [rewrite W4, D1 by discriminate; unfold a2; apply aset_eq|].
  assert (X1 : a4 ms_msi_extended_message_data_capable = a3 ms_msi_extended_message_data_capable) by (apply W4; discriminate).
  assert (X3 : a3 ms_msi_extended_message_data_capable = a2 ms_msi_extended_message_data_capable) by (apply D1; discriminate).
  assert (X5 : a4 ms_msi_message_data = a3 ms_msi_message_data) by (apply W4; discriminate). rewrite X5, D2, X1, <- X3.
  destruct (zbool (a3 ms_msi_extended_message_data_capable)) eqn:EX.
  - split; [apply W3; reflexivity|reflexivity].
  - reflexivity.
Qed.
End Init.

(** ** Programming the MSI-X table *)
Definition entry_at (t : Z -> Z -> Z) (bir o : Z) (v : vec) : Prop :=
  t bir (o + 0) = Z.land (v_addr v) 0xfffffffc /\ t bir (o + 4) = Z.land (Z.shiftr (v_addr v) 32) 0xffffffff /\
  t bir (o + 8) = Z.land (v_data v) 0xffffffff /\ t bir (o + 12) = 0.
Lemma table_ok n : forall k bir toff vs f t, (n <= length vs)%nat ->
  exists t', write_table d_bw n k bir toff vs (f, t) = Ok (f, t') /\ (forall x, x < toff + k * 16 -> t' bir x = t bir x) /\
    forall j v, (j < n)%nat -> nth_error vs j = Some v -> entry_at t' bir (toff + (k + Z.of_nat j) * 16) v.
Proof.
  induction n as [|n IH]; intros k bir toff vs f t L.
  - exists t. split; [reflexivity|]. split; [reflexivity|]. intros j v H. lia.
  - destruct vs as [|v0 vs]; [cbn in L; lia|]. cbn [length] in L. cbn [write_table]. unfold d_bw at 1. cbn [bind fst snd]. unfold d_bw at 1. cbn [bind fst snd].
    unfold d_bw at 1. cbn [bind fst snd]. unfold d_bw at 1. cbn [bind fst snd].
    match goal with |- context [write_table d_bw n _ _ _ _ (f, ?u)] => set (t1 := u) end.
    destruct (IH (k + 1) bir toff vs f t1 ltac:(lia)) as (t' & E & A & B). exists t'. split; [exact E|]. split.
    + intros x Hx. rewrite A by lia. unfold t1. rewrite Z.eqb_refl. cbn [andb].
      replace (x =? toff + k * 16 + 12) with false by lia. replace (x =? toff + k * 16 + 8) with false by lia.
      replace (x =? toff + k * 16 + 4) with false by lia. replace (x =? toff + k * 16 + 0) with false by lia. reflexivity.
    + intros [|j] v Hj V.
      * cbn in V. injection V as <-. unfold entry_at. replace (toff + (k + Z.of_nat 0) * 16) with (toff + k * 16) by lia.
        rewrite !A by lia. unfold t1. rewrite Z.eqb_refl. cbn [andb]. rewrite !Z.eqb_refl.
        replace (toff + k * 16 + 0 =? toff + k * 16 + 12) with false by lia. replace (toff + k * 16 + 0 =? toff + k * 16 + 8) with false by lia.
        replace (toff + k * 16 + 0 =? toff + k * 16 + 4) with false by lia. replace (toff + k * 16 + 4 =? toff + k * 16 + 12) with false by lia.
        replace (toff + k * 16 + 4 =? toff + k * 16 + 8) with false by lia. replace (toff + k * 16 + 8 =? toff + k * 16 + 12) with false by lia. auto.
      * cbn in V. replace (k + Z.of_nat (S j)) with (k + 1 + Z.of_nat j) by lia. apply B; [lia|exact V].
Qed.
Lemma table_err n : forall k bir toff vs f t, (length vs < n)%nat -> write_table d_bw n k bir toff vs (f, t) = Err IndexError.
Proof.
  induction n as [|n IH]; intros k bir toff vs f t L; [lia|]. destruct vs as [|v vs]; [reflexivity|]. cbn [length] in L. cbn [write_table].
  unfold d_bw at 1. cbn [bind fst snd]. unfold d_bw at 1. cbn [bind fst snd]. unfold d_bw at 1. cbn [bind fst snd]. unfold d_bw at 1. cbn [bind fst snd]. apply IH. lia.
Qed.
Lemma msix_regs c : c_kind c = KMsix -> exists v w, cap_read c 1 = Ok (Some v) /\ 0 <= v < 2 ^ 32 /\ cap_read c 2 = Ok (Some w) /\ 0 <= w < 2 ^ 32 /\
  Z.land v 7 = table_bar (c_attr c) /\ Z.land v (Z.lnot 7) = table_start (c_attr c).
Proof.
  intros E. unfold cap_read. rewrite E. cbn [is_ext kind_read Z.eqb Pos.eqb]. unfold mxc_read. cbn [Z.eqb Pos.eqb]. cbv zeta. unfold table_bar, table_start.
  generalize (c_attr c mx_msix_table_bar_indicator_register) (c_attr c mx_msix_table_offset) (c_attr c mx_msix_pba_bar_indicator_register) (c_attr c mx_msix_pba_offset).
  intros b o pb po. eexists _, _. split; [reflexivity|]. split; [bits|]. split; [reflexivity|]. split; [bits|]. split.
  - change 8 with (2 ^ 3). rewrite <- Z.land_ones by lia. change (Z.ones 3) with 7. bits.
  - transitivity (Z.shiftl (Z.land (Z.shiftr o 3) (Z.ones 29)) 3); [change (Z.ones 29) with 0x1fffffff; bits|].
    rewrite Z.land_ones, Z.shiftl_mul_pow2, Z.shiftr_div_pow2 by lia. change (2 ^ 3) with 8. change (2 ^ 29) with 536870912. change (2 ^ 32) with 4294967296. clear. lia.
Qed.
Lemma entries_land s : Z.land (s mx_msix_table_size) 0x7ff + 1 = table_entries s.
Proof. unfold table_entries. change 0x7ff with (Z.ones 11). rewrite Z.land_ones by lia. reflexivity. Qed.

Section InitX.
Variable d : mdev.
Hypothesis K : kind_of d.
Lemma msix_init q r f t i vs r' : placed f (d_co d MSIX_ID) KMsix 3 i -> at_id (d_id d) f ->
  vectors_for (table_entries (c_attr (f_heap f i))) q r = (vs, r') ->
  if table_entries (c_attr (f_heap f i)) <=? zlen vs then
    exists f' t' a, msix_capability_init (d_cr d) (d_cw d) (d_co d) d_bw d_br q r (f, t) = Ok (mkIrq vs (q_msi q) true, r', (f', t')) /\
      stepc d f f' i a /\ zbool (a mx_msix_enable) = true /\
      (forall x, x <> mx_msix_enable -> x <> mx_msix_function_mask -> a x = c_attr (f_heap f i) x) /\
      forall j v, Z.of_nat j < table_entries (c_attr (f_heap f i)) -> nth_error vs j = Some v ->
        entry_at t' (table_bar a) (table_start a + Z.of_nat j * 16) v
  else msix_capability_init (d_cr d) (d_cw d) (d_co d) d_bw d_br q r (f, t) = Err IndexError.
Proof.
  intros P I A. unfold msix_capability_init, msix_set_enable.
  destruct (msix_enable d K i 3 false f t P ltac:(lia) I) as (f1 & a1 & -> & S1 & E1 & O1 & _). cbn [bind q_vectors q_msi q_msix].
  pose proof (stepc_placed _ _ _ _ _ _ _ _ _ S1 P) as P1. pose proof (sc_id _ _ _ _ _ S1) as I1.
  pose proof (stepc_attr _ _ _ _ _ S1) as AT1. pose proof P1 as (_ & _ & K1 & _). destruct (msix_ctrl _ K1) as (c & R & CV & CB & CM). rewrite AT1 in CB, CM.
  destruct (msix_regs _ K1) as (v1 & v2 & R1 & V1 & R2 & V2 & B1 & B2). rewrite AT1 in B1, B2.
  set (f1' := with_id (d_id d) f1). pose proof (stepc_id d f1 i I1) as S1'. fold f1' in S1'. rewrite AT1 in S1'. pose proof (stepc_trans _ _ _ _ _ _ _ S1 S1') as T1.
  assert (I1' : at_id (d_id d) f1') by (split; reflexivity).
  rewrite (cap_rd_dword d K MSIX_ID 0 0 i KMsix 3 c f1 t P1 eq_refl ltac:(lia) I1 R CV). cbn [bind]. fold f1'.
  rewrite (cap_rd_dword d K MSIX_ID 4 1 i KMsix 3 v1 f1' t P1 eq_refl ltac:(lia) I1' R1 V1). cbn [bind]. change (with_id (d_id d) f1') with f1'.
  rewrite (cap_rd_dword d K MSIX_ID 8 2 i KMsix 3 v2 f1' t P1 eq_refl ltac:(lia) I1' R2 V2). cbn [bind]. change (with_id (d_id d) f1') with f1'.
  assert (TS : Z.land (Z.shiftr c 16) 2047 + 1 = table_entries (c_attr (f_heap f i))).
  { rewrite CM, entries_land. unfold table_entries. rewrite O1 by discriminate. reflexivity. }
  cbv zeta. rewrite TS, B1, B2. set (n := table_entries (c_attr (f_heap f i))) in *. assert (NP : 1 <= n) by (unfold n, table_entries; lia). clearbody n.
  assert (Q : match q_vectors q with [] => let '(v0, r0) := alloc_vectors n r in (mkIrq v0 (q_msi q) true, r0) | _ :: _ => (mkIrq (q_vectors q) (q_msi q) true, r) end
    = (mkIrq vs (q_msi q) true, r')).
  { unfold vectors_for in A. destruct (q_vectors q); [rewrite A; reflexivity|]. injection A as <- <-. reflexivity. }
  rewrite Q. clear Q. cbn [q_vectors]. destruct (Z.leb_spec n (zlen vs)) as [L|L].
  2:{ rewrite table_err by (unfold zlen in L; lia). reflexivity. }
  destruct (table_ok (Z.to_nat n) 0 (table_bar a1) (table_start a1) vs f1' t ltac:(unfold zlen in L; lia)) as (t' & -> & _ & TB). cbn [bind]. unfold d_br. cbn [bind].
  set (m := Z.lor c (Z.shiftl 1 31)). assert (M1 : 0 <= m < 2 ^ 32) by (unfold m; clear - CV; bits).
  assert (M2 : Z.testbit m 31 = true) by (unfold m; clear; bits). clearbody m.
  destruct (cap_wr_dword d K MSIX_ID 0 0 i KMsix 3 m f1' t' (stepc_placed _ _ _ _ _ _ _ _ _ S1' P1) eq_refl ltac:(lia) I1' M1) as (f2 & x & -> & X & S2). cbn [bind].
  rewrite (stepc_attr _ _ _ _ _ S1') in S2. pose proof (stepc_trans _ _ _ _ _ _ _ T1 S2) as T2.
  set (a2 := kind_write KMsix 0 x 15 a1) in *.
  assert (XB : bit x 31 = true) by (rewrite bit_testbit by lia; rewrite X by lia; exact M2).
  assert (W1 : zbool (a2 mx_msix_enable) = true).
  { unfold a2. cbn [kind_write]. unfold mxc_write. cbn [Z.eqb]. change (bit 15 3) with true. cbv [when]. rewrite aset_eq, zbool_b2z. exact XB. }
  assert (W2 : forall y, y <> mx_msix_enable -> y <> mx_msix_function_mask -> a2 y = a1 y).
  { intros y N1 N2. unfold a2. cbn [kind_write]. unfold mxc_write. cbn [Z.eqb]. change (bit 15 3) with true. cbv [when]. rewrite !aset_ne by assumption. reflexivity. }
  clearbody a2.
  destruct (msix_enable d K i 3 true f2 t' (stepc_placed _ _ _ _ _ _ _ _ _ T2 P) ltac:(lia) (sc_id _ _ _ _ _ T2)) as (f5 & a5 & -> & S5 & _ & _ & E5). cbn [bind].
  rewrite (stepc_attr _ _ _ _ _ T2) in E5. specialize (E5 W1). subst a5. exists f5, t', a2. split; [reflexivity|]. split; [exact (stepc_trans _ _ _ _ _ _ _ T2 S5)|].
  split; [exact W1|]. split; [intros y N1 N2; rewrite W2 by assumption; apply O1; assumption|].
  intros j v J V. unfold table_bar, table_start in *. rewrite !W2 by discriminate. replace (Z.of_nat j) with (0 + Z.of_nat j) by lia. apply TB; [lia|exact V].
Qed.
End InitX.

(** ** The region *)
Definition block (vs : list vec) : Prop := exists b n0, 0 <= b /\ vs = map (fun k => mkVec msi_base (b + Z.of_nat k) (n0 + k)) (List.seq 0 (length vs)).
Record rinv (r : msi_region) : Prop := {
  ri_limit : 0 <= mr_limit r;
  ri_vec : forall v, In v (mr_vectors r) -> v_addr v = msi_base /\ 0 <= v_data v < mr_limit r /\ (v_obj v < length (mr_vectors r))%nat;
  ri_data : NoDup (map v_data (mr_vectors r));
  ri_obj : NoDup (map v_obj (mr_vectors r))
}.
Lemma alloc_spec n r : rinv r -> let '(vs, r') := alloc_vectors n r in
  rinv r' /\ block vs /\ zlen vs = Z.max 0 n /\ mr_vectors r' = vs ++ mr_vectors r /\ mr_limit r <= mr_limit r' /\
  mr_limit r' = (mr_limit r + Z.max 0 n) + (mr_limit r + Z.max 0 n) mod 32 /\
  (forall v, In v vs -> (length (mr_vectors r) <= v_obj v)%nat) /\ (match vs with v :: _ => v_data v = mr_limit r | [] => True end).
Proof.
  intros [R1 R2 R3 R4]. unfold alloc_vectors. set (m := Z.to_nat n). set (vs := map _ (List.seq 0 m)).
  assert (LV : length vs = m) by (unfold vs; rewrite map_length, seq_length; reflexivity). assert (M : Z.of_nat m = Z.max 0 n) by lia.
  pose proof (Z.mod_pos_bound (mr_limit r + Z.of_nat m) 32 ltac:(lia)) as MB.
  assert (IV : forall v, In v vs -> v_addr v = msi_base /\ mr_limit r <= v_data v < mr_limit r + Z.of_nat m /\ (length (mr_vectors r) <= v_obj v < length (mr_vectors r) + m)%nat).
  { intros v Hv. unfold vs in Hv. apply in_map_iff in Hv. destruct Hv as (k & <- & Hk). apply in_seq in Hk. cbn. split; [reflexivity|]. lia. }
  split; [constructor; cbn [mr_limit mr_vectors]|].
  - lia.
  - intros v Hv. rewrite app_length, LV. apply in_app_or in Hv. destruct Hv as [Hv|Hv]; [apply IV in Hv|apply R2 in Hv]; intuition lia.
  - rewrite map_app. apply ProofsCapList.nodup_app; [|exact R3|].
    + unfold vs. rewrite map_map. cbn [v_data]. apply FinFun.Injective_map_NoDup; [intros x y; lia|apply seq_NoDup].
    + intros x Hx Hy. apply in_map_iff in Hx. destruct Hx as (v & <- & Hv). apply in_map_iff in Hy. destruct Hy as (w & E & Hw). apply IV in Hv. apply R2 in Hw. lia.
  - rewrite map_app. apply ProofsCapList.nodup_app; [|exact R4|].
    + unfold vs. rewrite map_map. cbn [v_obj]. apply FinFun.Injective_map_NoDup; [intros x y; lia|apply seq_NoDup].
    + intros x Hx Hy. apply in_map_iff in Hx. destruct Hx as (v & <- & Hv). apply in_map_iff in Hy. destruct Hy as (w & E & Hw). apply IV in Hv. apply R2 in Hw. lia.
  - split; [exists (mr_limit r), (length (mr_vectors r)); split; [exact R1|]; rewrite LV; reflexivity|].
    split; [unfold zlen; lia|]. split; [reflexivity|]. cbn [mr_limit]. split; [lia|]. split; [rewrite M; reflexivity|].
    split; [intros v Hv; apply IV in Hv; lia|]. unfold vs. destruct m; [exact Logic.I|]. cbn. lia.
Qed.
Lemma find_vec r v : rinv r -> In v (mr_vectors r) -> find (fun w => v_data w =? v_data v) (mr_vectors r) = Some v.
Proof.
  intros [_ _ R _]. induction (mr_vectors r) as [|w l IH]; intros H; [destruct H|]. cbn [find]. cbn [map] in R. apply NoDup_cons_iff in R. destruct R as [N R].
  destruct H as [->|H]; [rewrite Z.eqb_refl; reflexivity|]. destruct (Z.eqb_spec (v_data w) (v_data v)) as [E|E]; [|apply IH; assumption].
  exfalso. apply N. rewrite E. apply in_map. exact H.
Qed.
