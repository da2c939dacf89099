(** The configuration outputs of the Intel device models (C54). *)
From Verif Require Import Base BaseProofs Bits ModelUtils ModelTlp ModelAttrs ModelCaps ModelCapList ModelConfig ModelTlCfg
  SpecRegs SpecCaps SpecConfig SpecTlCfg ProofsRegs ProofsCaps ProofsCapsLayout ProofsConfig ProofsConfigTop.

Definition mmask (m : mirror) : Z := Z.shiftl (Z.ones (m_width m)) (m_at m).
Definition mcovered (l : list mirror) : Z := fold_right (fun m a => Z.lor (mmask m) a) 0 l.
Definition mok (m : mirror) : bool := (0 <=? m_at m) && (0 <=? m_width m) && (0 <=? m_lo m).
Fixpoint mfields (l : list mirror) (exc : Z) (f : cfn) (v : Z) : Prop :=
  match l with
  | [] => True
  | m :: r =>
    (if Z.land exc (mmask m) =? 0
     then Z.land (Z.shiftr v (m_at m)) (Z.ones (m_width m)) = Z.land (Z.shiftr (reads0 (host_reads f (m_src m) (m_reg m))) (m_lo m)) (Z.ones (m_width m))
     else True) /\ mfields r exc f v
  end.
Lemma mmask_bit m i : mok m = true -> 0 <= i -> Z.testbit (mmask m) i = (m_at m <=? i) && (i <? m_at m + m_width m).
Proof.
  unfold mok. intros H Hi. apply andb_prop in H. destruct H as [H _]. unfold mmask. rewrite Z.shiftl_spec by lia.
  destruct (Z.leb_spec (m_at m) i) as [L|L]; cbn [andb].
  - rewrite Z.testbit_ones by lia. destruct (i <? m_at m + m_width m) eqn:E; lia.
  - apply Z.testbit_neg_r. lia.
Qed.
Lemma mcovered_bit l i : forallb mok l = true -> 0 <= i ->
  (forall m, In m l -> ~ (m_at m <= i < m_at m + m_width m)) -> Z.testbit (mcovered l) i = false.
Proof.
  induction l as [|m r IH]; cbn [forallb mcovered fold_right]; intros H Hi N; [apply Z.bits_0|].
  apply andb_prop in H. destruct H as [H1 H2]. rewrite Z.lor_spec, mmask_bit by assumption.
  fold (mcovered r). rewrite IH; [|exact H2|exact Hi|intros g G; apply N; right; exact G].
  specialize (N m (or_introl eq_refl)). lia.
Qed.
Lemma mfields_in l exc f v : mfields l exc f v -> forallb mok l = true -> forall m, In m l ->
  (forall i, m_at m <= i < m_at m + m_width m -> Z.testbit exc i = false) ->
  slice v (m_at m) (m_width m) = slice (reads0 (host_reads f (m_src m) (m_reg m))) (m_lo m) (m_width m).
Proof.
  induction l as [|g r IH]; cbn [mfields forallb In]; intros H K m F X; [contradiction|].
  apply andb_prop in K. destruct K as [K1 K2]. destruct H as [H1 H2].
  destruct F as [->|F]; [|exact (IH H2 K2 m F X)].
  assert (Kf := K1). unfold mok in Kf. apply andb_prop in Kf. destruct Kf as [Kf Kp].
  replace (Z.land exc (mmask m) =? 0) with true in H1.
  - rewrite !slice_land by lia. exact H1.
  - symmetry. apply Z.eqb_eq. apply Z.bits_inj'. intros i Hi. rewrite Z.land_spec, mmask_bit, Z.bits_0 by assumption.
    destruct ((m_at m <=? i) && (i <? m_at m + m_width m)) eqn:E; [rewrite X by lia; reflexivity|apply andb_false_r].
Qed.
Lemma mirrors_intro n l exc f v : forallb mok l = true -> (exc = 0 -> 0 <= v < 2 ^ n) -> mfields l exc f v ->
  Z.land v (Z.lnot (Z.lor (mcovered l) exc)) = 0 -> mirrors n l exc f v.
Proof.
  intros K B F R. split; [exact B|]. split.
  - intros m Hm X. exact (mfields_in l exc f v F K m Hm X).
  - intros i Hi N X. apply (f_equal (fun z => Z.testbit z i)) in R.
    rewrite Z.land_spec, Z.lnot_spec, Z.lor_spec, X, (mcovered_bit l i K Hi N), Z.bits_0 in R by lia.
    rewrite andb_true_r in R. exact R.
Qed.

(** ** The registers of MSI *)
Lemma zbool_nz x : x <> 0 -> zbool x = true.
Proof. intros H. unfold zbool. apply Bool.negb_true_iff, Z.eqb_neq. exact H. Qed.
Section Msi.
Variable s : attrs.
Hypothesis M : msi_ok s.
Lemma ms_r1 : msc_read s 1 = Some (Z.land (s ms_msi_message_address) 0xffffffff).
Proof.
  destruct M as [_ _ [B A] _ _]. cbv [msc_read Z.eqb Pos.eqb]. f_equal.
  apply Z.bits_inj'. intros i Hi. rewrite !Z.land_spec.
  destruct (Z.ltb_spec i 2) as [L|L].
  - assert (Z.testbit (s ms_msi_message_address) i = false) as ->; [|reflexivity].
    change 4 with (2 ^ 2) in A. rewrite <- (Z.mod_pow2_bits_low _ 2) by lia. rewrite A. apply Z.bits_0.
  - f_equal. change 0xfffffffc with (Z.shiftl (Z.ones 30) 2). change 0xffffffff with (Z.ones 32).
    rewrite Z.shiftl_spec, !Z.testbit_ones_nonneg by lia. lia.
Qed.
Lemma ms_r2 : msc_read s 2 = Some (Z.land (Z.shiftr (s ms_msi_message_address) 32) 0xffffffff).
Proof. destruct M as [A _ _ _ _]. cbv [msc_read Z.eqb Pos.eqb]. rewrite (zbool_nz _ A). reflexivity. Qed.
Lemma ms_r3 : msc_read s 3 = Some (Z.land (s ms_msi_message_data) 0xffffffff).
Proof.
  destruct M as [A _ _ D _]. cbv [msc_read Z.eqb Pos.eqb]. rewrite (zbool_nz _ A). cbn [andb].
  change (Z.eqb 3 3) with true. unfold zbool. destruct (s ms_msi_extended_message_data_capable =? 0); [|reflexivity].
  cbn [negb]. f_equal. change 0xffff with (Z.ones 16). change 0xffffffff with (Z.ones 32). rewrite !Z.land_ones by lia. lia.
Qed.
Lemma ms_r4 : reads0 (msc_read s 4) = s ms_msi_mask_bits.
Proof.
  destruct M as [A Hm _ _ B]. cbv [msc_read Z.eqb Pos.eqb]. rewrite (zbool_nz _ A). cbn [andb Z.eqb Pos.eqb]. unfold zbool.
  destruct (Z.eqb_spec (s ms_msi_per_vector_mask_capable) 0) as [E|E]; cbn [negb reads0]; [rewrite Hm by exact E; reflexivity|].
  change 0xffffffff with (Z.ones 32). rewrite Z.land_ones by lia. lia.
Qed.
End Msi.

(** ** The words *)
Lemma ae_bound f r : 1 <= r -> 0 <= ae_reg f r < 2 ^ 32.
Proof. intros H. destruct (aec_shows (w_ae f) r H) as (v & E & B & _). unfold ae_reg. rewrite E. exact B. Qed.
Ltac pre := unfold ors, fb, fm; cbn [fold_left].
Ltac srcs :=
  cbn [mfields m_at m_width m_src m_reg m_lo cmd dev_ctl link_ctl slot_ctl root_ctl dev_ctl2 aer_number];
  unfold host_reads;
  repeat match goal with |- context [Z.land ?e (mmask ?f) =? 0] =>
      let b := eval vm_compute in (Z.land e (mmask f) =? 0) in change (Z.land e (mmask f) =? 0) with b; cbn iota end.
Ltac ms_regs := rewrite ?ms_r1, ?ms_r2, ?ms_r3, ?ms_r4 by assumption.
Ltac regs :=
  cbv [fn_read pec_read pmc_read mxc_read aec_read msc_read reads0 Z.eqb Pos.eqb ModelConfig.f_attr];
  cbv [Z.leb Z.compare Pos.compare Pos.compare_cont andb]; cbv beta iota.
Ltac word :=
  apply mirrors_intro;
  [ reflexivity
  | intros _; pre; unfold ae_reg; cbv [aec_read Z.eqb Pos.eqb]; bits
  | srcs; ms_regs; repeat split; try exact Logic.I; pre; unfold ae_reg;
    regs; bits
  | match goal with |- context [mcovered ?l] =>
      let m := eval vm_compute in (mcovered l) in change (mcovered l) with m end; pre; unfold ae_reg; cbv [aec_read Z.eqb Pos.eqb]; bits ].
Lemma ae_reads f r : reads0 (aec_read (w_ae f) r) = ae_reg f r.
Proof. reflexivity. Qed.
Ltac ae_word f :=
  pose proof (ae_bound f 2 ltac:(lia)) as A2; pose proof (ae_bound f 3 ltac:(lia)) as A3; pose proof (ae_bound f 5 ltac:(lia)) as A5;
  apply mirrors_intro; [reflexivity | intros _ | srcs | ];
  rewrite ?ae_reads;
  generalize dependent (ae_reg f 2); generalize dependent (ae_reg f 3); generalize dependent (ae_reg f 5); intros;
  try lia; try match goal with |- _ /\ True => split; [|exact Logic.I] end;
  try match goal with |- context [mcovered ?l] =>
      let m := eval vm_compute in (mcovered l) in change (mcovered l) with m end; bits.
Ltac words_of w := unfold w; cbv beta iota delta [Z.eqb Pos.eqb orb Z.of_nat Pos.of_succ_nat Pos.succ nth h_words l_words p_words].
Section Words.
Variable f : cfn.
Hypothesis M : msi_ok (w_ms f).
Lemma mb32 : 0 <= w_ms f ms_msi_mask_bits < 2 ^ 32.
Proof. exact (mo_bits _ M). Qed.
Lemma h_ok k : (k < 10)%nat -> mirrors 32 (nth k h_words []) 0 f (htile_word f (Z.of_nat k)).
Proof.
  pose proof mb32 as Hb. intros Hk. do 7 (destruct k as [|k]; [words_of htile_word; word|]).
  do 3 (destruct k as [|k]; [words_of htile_word; ae_word f|]). lia.
Qed.
Lemma l_ok k : (k < 8)%nat -> k <> 1%nat -> mirrors 32 (nth k l_words []) 0 f (ltile_word f (Z.of_nat k)).
Proof.
  pose proof mb32 as Hb. intros Hk N. do 8 (destruct k as [|k]; [try (contradiction N; reflexivity); words_of ltile_word; word|]). lia.
Qed.
(** [val]: what the segment before has read *)
Lemma p_ok val k : (k < 32)%nat -> (k = 15%nat -> val = ae_reg f 2) -> (k = 17%nat -> val = ae_reg f 5) -> (k = 19%nat -> val = ae_reg f 3) ->
  mirrors 16 (nth k p_words []) 0 f (ptile_word f val (Z.of_nat k)).
Proof.
  pose proof mb32 as Hb. intros Hk V1 V2 V3.
  do 14 (destruct k as [|k]; [clear V1 V2 V3; words_of ptile_word; word|]).
  do 6 (destruct k as [|k]; [words_of ptile_word;
    first [rewrite V1 by reflexivity|rewrite V2 by reflexivity|rewrite V3 by reflexivity|idtac]; clear V1 V2 V3; ae_word f|]).
  do 12 (destruct k as [|k]; [clear V1 V2 V3; words_of ptile_word; word|]). lia.
Qed.
Lemma l1_ok : mirrors 32 (nth 1 l_words []) 0x1ff000000 f (ltile_word f 1).
Proof.
  words_of ltile_word. apply mirrors_intro; [reflexivity|discriminate| |].
  - srcs. repeat split; try exact Logic.I; pre; regs; bits.
  - match goal with |- context [mcovered ?l] => let m := eval vm_compute in (mcovered l) in change (mcovered l) with m end; pre; bits.
Qed.
Lemma l1_ok0 : (w_ae f ae_advanced_error_interrupt_message_number) mod 32 = 0 -> mirrors 32 (nth 1 l_words []) 0 f (ltile_word f 1).
Proof.
  intros E. assert (E' : Z.land (w_ae f ae_advanced_error_interrupt_message_number) 0x1f = 0).
  { change 0x1f with (Z.ones 5). rewrite Z.land_ones by lia. exact E. }
  words_of ltile_word. cbv delta [fm]. cbv beta. rewrite E'. change (Z.shiftl 0 28) with 0. apply mirrors_intro; [reflexivity| | |].
  - intros _. pre. bits.
  - srcs. repeat split; try exact Logic.I; pre; regs; rewrite ?E'; bits.
  - match goal with |- context [mcovered ?l] => let m := eval vm_compute in (mcovered l) in change (mcovered l) with m end; pre; bits.
Qed.
End Words.

(** ** The order of the words *)
Lemma step_mod A n : (0 < A)%nat ->
  (S n mod A = if Nat.eqb (S (n mod A)) A then 0 else S (n mod A))%nat /\ (S n / A = if Nat.eqb (S (n mod A)) A then S (n / A) else n / A)%nat.
Proof.
  intros H. pose proof (Nat.div_mod n A ltac:(lia)) as D. pose proof (Nat.mod_upper_bound n A ltac:(lia)) as U.
  set (q := (n / A)%nat) in *. set (r := (n mod A)%nat) in *. clearbody q r.
  destruct (Nat.eqb_spec (S r) A) as [E|E].
  - assert (S n = A * S q + 0)%nat by nia. split; symmetry; [apply (Nat.mod_unique _ _ (S q))|apply (Nat.div_unique _ _ _ 0)]; lia.
  - assert (S n = A * q + S r)%nat by nia. split; symmetry; [apply (Nat.mod_unique _ _ q)|apply (Nat.div_unique _ _ _ (S r))]; lia.
Qed.
Fixpoint state_after (t : tile) (h : list (list cfn)) (z : zst) : option zst :=
  match h with [] => Some z | fs :: h => match tl_step t fs z with Some (_, z') => state_after t h z' | None => None end end.
Lemma run_app t h1 : forall h2 z z1, state_after t h1 z = Some z1 ->
  tl_run t (h1 ++ h2) z = tl_run t h1 z ++ tl_run t h2 z1 /\ length (tl_run t h1 z) = length h1.
Proof.
  induction h1 as [|fs h1 IH]; cbn [state_after app tl_run]; intros h2 z z1 H; [injection H as ->; split; reflexivity|].
  destruct (tl_step t fs z) as [[o z']|]; [|discriminate H]. destruct (IH h2 z' z1 H) as [E1 E2].
  cbn [app length]. rewrite E1, E2. split; reflexivity.
Qed.
Lemma state_app t h1 : forall h2 z, state_after t (h1 ++ h2) z = match state_after t h1 z with Some z1 => state_after t h2 z1 | None => None end.
Proof.
  induction h1 as [|fs h1 IH]; cbn [state_after app]; intros h2 z; [reflexivity|]. destruct (tl_step t fs z) as [[o z']|]; [apply IH|reflexivity].
Qed.
Definition index (nf : nat) (z : zst) : nat := if Nat.eqb (z_k z) 0 && Nat.leb nf (z_i z) then 0 else z_i z.
(** the register the P-Tile's [val] comes from *)
Definition val_reg (k : nat) : option Z := match k with 15%nat => Some 2 | 17%nat => Some 5 | 19%nat => Some 3 | _ => None end.
Definition tl_inv (t : tile) (nf : nat) (h : list (list cfn)) (z : zst) : Prop :=
  let n := length h in
  (z_k z, index nf z) = (snd (turn t nf n), fst (turn t nf n)) /\
  (z_k z <> 0%nat -> exists fs f, nth_error h (n - z_k z) = Some fs /\ nth_error fs (index nf z) = Some f /\ z_func z = func (w_id f)) /\
  (forall r, t = TileP -> val_reg (z_k z) = Some r ->
     exists fs f, nth_error h (n - 1) = Some fs /\ nth_error fs (index nf z) = Some f /\ z_val z = ae_reg f r).
Lemma count_eq t : count t = addresses t.
Proof. destruct t; reflexivity. Qed.
Lemma addresses_pos t : (1 < addresses t)%nat.
Proof. destruct t; cbn; lia. Qed.
Lemma nth_last {A} (l : list A) x : nth_error (l ++ [x]) (length l) = Some x.
Proof. rewrite nth_error_app2, Nat.sub_diag by lia. reflexivity. Qed.
Lemma nth_some {A} (l : list A) i : (i < length l)%nat -> exists x, nth_error l i = Some x.
Proof. intros H. destruct (nth_error l i) as [x|] eqn:E; [exists x; reflexivity|]. apply nth_error_None in E. lia. Qed.
Lemma step_inv t nf h fs z : (0 < nf)%nat -> length fs = nf -> tl_inv t nf h z ->
  exists f z', nth_error fs (fst (turn t nf (length h))) = Some f /\
    tl_step t fs z = Some (if Nat.eqb (z_k z) 0 then func (w_id f) else z_func z, Z.of_nat (snd (turn t nf (length h))),
      tl_word t f (z_val z) (Z.of_nat (snd (turn t nf (length h)))), z') /\ tl_inv t nf (h ++ [fs]) z'.
Proof.
  intros Hn L (E & F & V). apply pair_equal_spec in E. destruct E as [Ek Ei]. pose proof (addresses_pos t) as HA.
  unfold turn in *. rewrite count_eq in *. cbn [fst snd] in *. set (n := length h) in *.
  assert (Hi : ((n / addresses t) mod nf < nf)%nat) by (apply Nat.mod_upper_bound; lia).
  assert (Hk : (n mod addresses t < addresses t)%nat) by (apply Nat.mod_upper_bound; lia).
  destruct (nth_some fs ((n / addresses t) mod nf) ltac:(lia)) as [f Hf]. exists f.
  unfold tl_step. rewrite L. fold (index nf z). rewrite Ei, Hf, Ek.
  set (fn := if Nat.eqb (n mod addresses t) 0 then func (w_id f) else z_func z). set (val := match t with TileP => ptile_val f (z_val z) (Z.of_nat (n mod addresses t)) | _ => z_val z end).
  eexists. split; [reflexivity|]. split; [reflexivity|].
  destruct (step_mod (addresses t) n ltac:(lia)) as [M1 M2]. destruct (step_mod nf (n / addresses t) Hn) as [M3 _].
  unfold tl_inv, turn. rewrite count_eq, app_length. cbn [length fst snd]. fold n. replace (n + 1)%nat with (S n) by lia. rewrite M1, M2.
  destruct (Nat.eqb_spec (S (n mod addresses t)) (addresses t)) as [E|E]; cbn [z_k z_i z_func z_val].
  - split; [|split].
    + apply pair_equal_spec. split; [reflexivity|]. rewrite M3. unfold index. cbn [z_k z_i]. rewrite Nat.eqb_refl. cbn [andb].
      revert Hi. clear. generalize ((n / addresses t) mod nf)%nat. intros q Hi.
      destruct (Nat.eqb_spec (S q) nf), (Nat.leb_spec nf (S q)); lia.
    + intros C. contradiction C. reflexivity.
    + intros r _ C. discriminate C.
  - unfold index. cbn [z_k z_i Nat.eqb andb]. split; [reflexivity|]. split.
    + intros _. subst fn. destruct (Nat.eqb_spec (n mod addresses t) 0) as [Z0|Z0].
      * rewrite Z0. exists fs, f. replace (S n - 1)%nat with (length h) by (subst n; lia). rewrite nth_last. repeat split; assumption.
      * rewrite Ek, Ei in F. destruct (F Z0) as (fs0 & f0 & N1 & N2 & N3). exists fs0, f0. split; [|split; assumption].
        assert (n mod addresses t <= n)%nat by (apply Nat.mod_le; lia).
        replace (S n - S (n mod addresses t))%nat with (n - n mod addresses t)%nat by lia. rewrite nth_error_app1; [exact N1|subst n; lia].
    + intros r -> R. exists fs, f. replace (S n - 1)%nat with (length h) by (subst n; lia). rewrite nth_last. split; [reflexivity|]. split; [exact Hf|].
      subst val. revert R. generalize (n mod addresses TileP)%nat. intros k R. unfold ptile_val.
      do 19 (destruct k as [|k]; [cbn in R; try discriminate R; injection R as <-; reflexivity|]). destruct k; discriminate R.
Qed.
Lemma run_inv t nf h : (0 < nf)%nat -> Forall (fun fs => length fs = nf) h -> exists z, state_after t h tl_start = Some z /\ tl_inv t nf h z.
Proof.
  intros Hn. induction h as [|fs h IH] using rev_ind; intros L.
  - exists tl_start. split; [reflexivity|]. pose proof (addresses_pos t). unfold tl_inv, turn, index, tl_start. rewrite count_eq. cbn [length z_k z_i z_func z_val fst snd Nat.eqb andb].
    rewrite Nat.div_small, !Nat.mod_small by lia. destruct (Nat.leb_spec nf 0); [lia|].
    repeat split; [intros C; contradiction C; reflexivity|intros r _ C; discriminate C].
  - apply Forall_app in L. destruct L as [L1 L2]. destruct (IH L1) as (z & E & V). apply Forall_inv in L2.
    destruct (step_inv t nf h fs z Hn L2 V) as (f & z' & _ & St & V'). exists z'. split; [|exact V'].
    rewrite state_app, E. cbn [state_after]. rewrite St. reflexivity.
Qed.

Theorem cfg_ok t nf h n : (0 < nf)%nat -> Forall (fun fs => length fs = nf /\ Forall (fun f => msi_ok (w_ms f)) fs) h -> (n < length h)%nat ->
  let (i, k) := turn t nf n in
  exists fn v, nth_error (tl_run t h tl_start) n = Some (fn, Z.of_nat k, v) /\
    (exists fs f, nth_error h (n - k) = Some fs /\ nth_error fs i = Some f /\ fn = func (w_id f)) /\
    (exists fs f, nth_error h (taken t k n) = Some fs /\ nth_error fs i = Some f /\
       mirrors (bits_of t) (nth k (words t) []) (left_out t k f) f v).
Proof.
  intros Hn W Hl. assert (L : Forall (fun fs => length fs = nf) h) by (eapply Forall_impl; [|exact W]; intros x [X _]; exact X).
  destruct (nth_some h n Hl) as [fs Hfs]. destruct (nth_error_split h n Hfs) as (h1 & h2 & -> & <-).
  destruct (Forall_app (fun fs => length fs = nf) h1 (fs :: h2)) as [A _]. destruct (A L) as [L1 L2]. apply Forall_inv in L2.
  destruct (run_inv t nf h1 Hn L1) as (z & E & V). destruct (step_inv t nf h1 fs z Hn L2 V) as (f & z' & Hf & St & _).
  destruct (run_app t h1 (fs :: h2) tl_start z E) as [R1 R2].
  pose proof (addresses_pos t) as HA. destruct V as (K & F & V). apply pair_equal_spec in K. destruct K as [Kk Ki].
  destruct (turn t nf (length h1)) as [i k] eqn:T. cbn [fst snd] in *.
  assert (Hk : (k < addresses t /\ k <= length h1)%nat).
  { unfold turn in T. rewrite count_eq in T. apply pair_equal_spec in T. destruct T as [_ <-]. split; [apply Nat.mod_upper_bound; lia|apply Nat.mod_le; lia]. }
  eexists. eexists. split.
  { rewrite R1, nth_error_app2, R2, Nat.sub_diag by lia. cbn [tl_run]. rewrite St. reflexivity. }
  rewrite Kk, Ki in *. split.
  { destruct (Nat.eqb_spec k 0) as [->|N].
    - exists fs, f. rewrite Nat.sub_0_r. repeat split; assumption.
    - destruct (F N) as (fs0 & f0 & N1 & N2 & N3). exists fs0, f0. split; [|split; assumption].
      rewrite nth_error_app1; [exact N1|]. assert (nth_error h1 (length h1 - k) <> None) as X by congruence. apply nth_error_Some in X. exact X. }
  assert (Mo : forall m gs g, nth_error (h1 ++ fs :: h2) m = Some gs -> nth_error gs i = Some g -> msi_ok (w_ms g)).
  { intros m gs g G1 G2. apply nth_error_In in G1, G2. rewrite Forall_forall in W. destruct (W gs G1) as [_ W2]. rewrite Forall_forall in W2. exact (W2 g G2). }
  pose proof (Mo _ _ _ Hfs Hf) as M.
  destruct t; cbn [addresses taken words bits_of tl_word left_out] in *.
  - exists fs, f. split; [exact Hfs|]. split; [exact Hf|]. apply h_ok; [exact M|lia].
  - exists fs, f. split; [exact Hfs|]. split; [exact Hf|]. destruct (Nat.eq_dec k 1) as [->|N].
    + destruct (Z.eqb_spec (w_ae f ae_advanced_error_interrupt_message_number mod 32) 0) as [Z0|Z0]; [apply l1_ok0; assumption|apply l1_ok].
    + replace (match k with 1%nat => _ | _ => 0 end) with 0 by (destruct k as [|[|k]]; [reflexivity|lia|reflexivity]). apply l_ok; [exact M|lia|exact N].
  - destruct (val_reg k) as [r|] eqn:R.
    + destruct (V r eq_refl eq_refl) as (fs0 & f0 & N1 & N2 & N3).
      assert (Hq : nth_error (h1 ++ fs :: h2) (length h1 - 1) = Some fs0).
      { rewrite nth_error_app1; [exact N1|]. assert (nth_error h1 (length h1 - 1) <> None) as X by congruence. apply nth_error_Some in X. exact X. }
      exists fs0, f0. assert (Tk : taken TileP k (length h1) = (length h1 - 1)%nat).
      { clear -R. do 20 (destruct k as [|k]; [try discriminate R; reflexivity|]). discriminate R. }
      unfold taken in Tk. rewrite Tk. split; [exact Hq|]. split; [exact N2|].
      replace (ptile_word f (z_val z) (Z.of_nat k)) with (ptile_word f0 (z_val z) (Z.of_nat k)).
      * apply p_ok; [exact (Mo _ _ _ Hq N2)|lia| | |]; intros ->; injection R as <-; exact N3.
      * clear -R. do 20 (destruct k as [|k]; [try discriminate R; reflexivity|]). discriminate R.
    + exists fs, f. assert (Tk : taken TileP k (length h1) = length h1).
      { clear -R. do 20 (destruct k as [|k]; [try discriminate R; reflexivity|]). reflexivity. }
      unfold taken in Tk. rewrite Tk. split; [exact Hfs|]. split; [exact Hf|].
      apply p_ok; [exact M|lia| | |]; intros ->; discriminate R.
Qed.

(** Each word of each function has its turn once in a period. *)
Theorem turn_once t nf n0 i k : (i < nf)%nat -> (k < count t)%nat ->
  exists n, (n0 <= n < n0 + nf * count t)%nat /\ turn t nf n = (i, k) /\
    forall m, (n0 <= m < n0 + nf * count t)%nat -> turn t nf m = (i, k) -> m = n.
Proof.
  intros Hi Hk. unfold turn. set (A := count t) in *. clearbody A. set (P := (nf * A)%nat).
  assert (HP : (0 < P)%nat) by (subst P; nia). set (p := (i * A + k)%nat). assert (Hp : (p < P)%nat) by (subst p P; nia).
  assert (D : forall m, (((m / A) mod nf, m mod A) = (i, k) <-> m mod P = p)%nat).
  { intros m. subst P p. rewrite (Nat.mul_comm nf A), Nat.mod_mul_r by lia.
    pose proof (Nat.mod_upper_bound m A ltac:(lia)) as U1. pose proof (Nat.mod_upper_bound (m / A) nf ltac:(lia)) as U2.
    generalize dependent (m mod A)%nat. generalize dependent ((m / A) mod nf)%nat. intros a Ha b Hb. split.
    - intros E. apply pair_equal_spec in E. destruct E as [-> ->]. lia.
    - intros E. assert (a = i) by nia. subst a. f_equal. nia. }
  pose proof (Nat.div_mod n0 P ltac:(lia)) as E0. pose proof (Nat.mod_upper_bound n0 P ltac:(lia)) as U0.
  set (q := (n0 / P)%nat) in *. set (r := (n0 mod P)%nat) in *. clearbody q r.
  set (n := (if Nat.leb r p then P * q + p else P * S q + p)%nat).
  assert (Hn : (n0 <= n < n0 + P)%nat) by (subst n; destruct (Nat.leb_spec r p); nia).
  assert (En : (n mod P = p)%nat).
  { subst n. destruct (Nat.leb r p); symmetry; eapply Nat.mod_unique; try reflexivity; exact Hp. }
  exists n. split; [exact Hn|]. split; [apply D; exact En|]. intros m Hm E. apply D in E.
  pose proof (Nat.div_mod m P ltac:(lia)) as Em. rewrite E in Em. pose proof (Nat.div_mod n P ltac:(lia)) as Enn. rewrite En in Enn.
  revert Em Enn Hm Hn Hp. clear. generalize (m / P)%nat (n / P)%nat. intros a b -> Eb Hm Hn Hp. rewrite Eb in *. clear n Eb.
  assert (a = b) as ->; [|reflexivity]. destruct (Nat.lt_trichotomy a b) as [C|[C|C]]; [|exact C|]; exfalso; nia.
Qed.

(** ** Writes of the host *)
Lemma msi_start : msi_ok (aset ms_msi_64bit_address_capable 1 (aset ms_msi_per_vector_mask_capable 0 msc_init)).
Proof. constructor; vm_compute; repeat match goal with |- _ /\ _ => split end; congruence. Qed.
Lemma addr_shift a : 0 <= a < 2 ^ 64 -> a mod 4 = 0 -> exists q, a = Z.shiftl q 2 /\ 0 <= q < 2 ^ 62.
Proof. intros B E. exists (a / 4). rewrite Z.shiftl_mul_pow2 by lia. split; [change (2 ^ 2) with 4|]; lia. Qed.
Lemma land3_mod a : Z.land a 3 = 0 -> a mod 4 = 0.
Proof. change 3 with (Z.ones 2). rewrite Z.land_ones by lia. intros H. exact H. Qed.
Lemma msi_write_ok s reg data be : 0 <= be < 16 -> 0 <= data < 2 ^ 32 -> msi_ok s -> msi_ok (msc_write reg data be s).
Proof.
  intros Hb Hd [A Mk [Ab Am] D B]. unfold msc_write. rewrite (zbool_nz _ A). cbn [andb]. cbv iota.
  destruct (addr_shift _ Ab Am) as (q & Eq & Bq).
  assert (Nm : forall x, zbool x = true -> x <> 0) by (intros x X ->; discriminate X).
  destruct (reg =? 0). { destruct (bit be 2); constructor; look_ms; try assumption; try (split; assumption); destruct (zbool _); assumption || (split; assumption). }
  destruct (reg =? 1).
  { constructor; revert Eq; look_ms; intros Eq; try assumption. rewrite Eq, bmu_em4 by lia. unfold em4. split; [bits|apply land3_mod; bits]. }
  destruct (reg =? 2); cbn [andb].
  { constructor; revert Eq; look_ms; intros Eq; try assumption. rewrite Eq, bmu_hi by lia. unfold em4. split; [bits|apply land3_mod; bits]. }
  destruct (reg =? 3).
  { unfold when, zbool. destruct (s ms_msi_extended_message_data_capable =? 0) eqn:X; cbn [negb]; constructor; revert X; look_ms; intros X; rewrite ?X;
    try assumption; try (split; assumption).
    - change 65535 with (Z.ones 16). rewrite Z.land_ones by lia. apply Z.mod_pos_bound. lia.
    - change 4294967295 with (Z.ones 32). rewrite Z.land_ones by lia. apply Z.mod_pos_bound. lia. }
  destruct ((reg =? 4) && zbool (s ms_msi_per_vector_mask_capable)) eqn:E.
  { apply andb_prop in E. destruct E as [_ E]. constructor; look_ms; try assumption; [intros C; contradiction (Nm _ E C)|split; assumption|].
    change 0xffffffff with (Z.ones 32). rewrite Z.land_ones by lia. apply Z.mod_pos_bound. lia. }
  constructor; try assumption. split; assumption.
Qed.
(** All fields lie in registers that are there, in bits for which the writes are known. *)
Definition m_known (m : mirror) : bool :=
  (0 <=? m_lo m) && (1 <=? m_width m) && (0 <=? m_at m) && (m_lo m + m_width m <=? 32) &&
  match m_src m with
  | InFn => m_reg m =? 1
  | InPe => (m_reg m =? 12) || (Z.land (tab [(6, 0x01000800); (12, 0x80200000)] (m_reg m)) (Z.shiftl (Z.ones (m_width m)) (m_lo m)) =? 0)
  | InPm => (m_reg m =? 1) && (m_lo m =? 3)
  | InMs => (0 <=? m_reg m) && (m_reg m <=? 4)
  | InMx => m_reg m =? 0
  | InAe => 1 <=? m_reg m
  | InBus | InDev => true
  end.
Lemma known t : forallb (forallb m_known) (words t) = true.
Proof. destruct t; vm_compute; reflexivity. Qed.
Lemma known_in t k m : In m (nth k (words t) []) -> m_known m = true.
Proof.
  intros H. destruct (Nat.lt_ge_cases k (length (words t))) as [L|L]; [|rewrite nth_overflow in H by lia; contradiction].
  pose proof (known t) as K. rewrite forallb_forall in K. specialize (K _ (nth_In _ [] L)). rewrite forallb_forall in K. exact (K m H).
Qed.
Lemma be15 i : 0 <= i < 32 -> Z.testbit 0xf (i / 8) = true.
Proof. intros H. change 15 with (Z.ones 4). rewrite Z.testbit_ones_nonneg by lia. lia. Qed.
Lemma slice_eq a b lo w : 0 <= lo -> 0 <= w -> (forall i, lo <= i < lo + w -> Z.testbit a i = Z.testbit b i) -> slice a lo w = slice b lo w.
Proof.
  intros Hl Hw H. rewrite !slice_land by lia. apply Z.bits_inj'. intros i Hi. rewrite !Z.land_spec, !Z.shiftr_spec, Z.testbit_ones_nonneg by lia.
  destruct (Z.ltb_spec i w); [rewrite H by lia; reflexivity|rewrite !andb_false_r; reflexivity].
Qed.
Lemma upd_all rw w1c data old i : 0 <= i < 32 -> Z.testbit rw i = true -> upd_bit rw w1c 0xf data old i = Z.testbit data i.
Proof. intros Hi H. unfold upd_bit. rewrite be15, H by lia. reflexivity. Qed.
Lemma host_write_read t k m f data : In m (nth k (words t) []) -> msi_ok (w_ms f) ->
  (forall i, m_lo m <= i < m_lo m + m_width m -> Z.testbit (writable f (m_src m) (m_reg m)) i = true) ->
  (m_src m, m_reg m, m_lo m) <> (InMs, 0, 26) ->
  slice (reads0 (host_reads (host_writes f (m_src m) (m_reg m) data) (m_src m) (m_reg m))) (m_lo m) (m_width m) = slice data (m_lo m) (m_width m).
Proof.
  intros I M W X. assert (K := known_in t k m I). unfold m_known in K. apply andb_prop in K. destruct K as [K1 K2].
  apply slice_eq; [lia|lia|]. intros i Hi. specialize (W i Hi).
  assert (X26 : m_src m = InMs -> m_reg m = 0 -> i <> 26).
  { intros E1 E2 ->. assert (m_lo m <> 26) by congruence. clear -I E1 E2 Hi H.
    revert I. destruct t.
    all: do 32 (destruct k as [|k]; [cbn [words h_words l_words p_words nth In]; intros I;
      repeat (destruct I as [<-|I]; [cbn in *; try discriminate E1; try lia|]); try contradiction|]); destruct k; contradiction. }
  destruct f as [id fn pe pm ms mx ae]. destruct (m_src m) eqn:Sm; cbn [writable w_fn w_pe w_pm w_ms w_mx w_ae] in *; cbn [host_writes host_reads w_id w_fn w_pe w_pm w_ms w_mx w_ae].
  - rewrite Z.bits_0 in W. discriminate W.
  - rewrite Z.bits_0 in W. discriminate W.
  - apply Z.eqb_eq in K2. rewrite K2 in *. set (f0 := mkFn fn _ [] [] id).
    destruct (ep_follow f0 1 data 0xf 1 _ _ _ _ ltac:(lia) eq_refl eq_refl) as (v' & R & _ & F).
    change (ep_read (ep_write 1 data 15 f0) 1) with (fn_read (mkFn (ModelConfig.f_attr (ep_write 1 data 15 f0)) (fun _ => mkCap KMsi 0 0 0 None 0 (fun _ => 0)) [] [] id) 1) in R.
    rewrite R. cbn [reads0]. rewrite (F i) by (lia || apply Z.bits_0). apply upd_all; [lia|exact W].
  - destruct (pec_shows pe (m_reg m)) as (v & R & _).
    destruct (pec_write_ok pe (m_reg m) data 0xf (m_reg m) v ltac:(lia) R) as (v' & R' & F). rewrite R'. cbn [reads0]. rewrite Z.eqb_refl in F.
    rewrite F; [apply upd_all; [lia|exact W]|lia|].
    destruct (Z.eqb_spec (m_reg m) 12) as [E12|N12].
    + exfalso. clear -I Sm E12. revert I. destruct t.
      all: do 32 (destruct k as [|k]; [cbn [words h_words l_words p_words nth In]; intros I;
        repeat (destruct I as [<-|I]; [cbn in *; try discriminate Sm; lia|]); contradiction|]); destruct k; contradiction.
    + cbn [orb] in K2. apply Z.eqb_eq in K2. apply (f_equal (fun z => Z.testbit z i)) in K2.
      rewrite Z.land_spec, Z.shiftl_spec, Z.testbit_ones_nonneg, Z.bits_0 in K2 by lia.
      replace (i - m_lo m <? m_width m) with true in K2 by lia. rewrite andb_true_r in K2. exact K2.
  - exfalso. apply andb_prop in K2. destruct K2 as [K2 K3]. apply Z.eqb_eq in K2, K3. rewrite K2 in W. clear F || idtac.
    assert (In m (nth k (words t) []) -> m_width m = 1) as Wm.
    { clear -Sm. destruct t.
      all: do 32 (destruct k as [|k]; [cbn [words h_words l_words p_words nth In]; intros I;
        repeat (destruct I as [<-|I]; [cbn in *; try discriminate Sm; reflexivity|]); contradiction|]); destruct k; contradiction. }
    specialize (Wm I). replace i with 3 in W by lia. discriminate W.
  - assert (exists v, msc_read ms (m_reg m) = Some v) as [v R].
    { assert (m_reg m = 0 \/ m_reg m = 1 \/ m_reg m = 2 \/ m_reg m = 3 \/ m_reg m = 4) as [E|[E|[E|[E|E]]]] by lia; rewrite E in *.
      - eexists. reflexivity.
      - eexists. apply ms_r1. exact M.
      - eexists. apply ms_r2. exact M.
      - eexists. apply ms_r3. exact M.
      - destruct M as [A _ _ _ _]. cbv [msc_read Z.eqb Pos.eqb]. rewrite (zbool_nz _ A). cbn [andb Z.eqb Pos.eqb].
        destruct (zbool (ms ms_msi_per_vector_mask_capable)) eqn:Z0; [eexists; reflexivity|]. exfalso.
        unfold zbool in Z0. revert W. unfold msi_rw. rewrite Z0. replace (ms ms_msi_64bit_address_capable =? 0) with false by lia. cbn [negb andb Z.eqb Pos.eqb].
        rewrite Z.bits_0. discriminate. }
    destruct (msi_follow ms (m_reg m) data 0xf (m_reg m) v ltac:(lia) R) as (v' & R' & _ & F). rewrite R'. cbn [reads0]. rewrite Z.eqb_refl in F.
    rewrite F; [apply upd_all; [lia|exact W]|lia|]. cbn [tab]. destruct (Z.eqb_spec (m_reg m) 0) as [E|E]; [|apply Z.bits_0].
    specialize (X26 eq_refl E). change 0x04000000 with (2 ^ 26). apply Z.pow2_bits_false. lia.
  - apply Z.eqb_eq in K2. rewrite K2 in *.
    destruct (msix_follow mx 0 data 0xf 0 _ ltac:(lia) eq_refl) as (v' & R' & F). rewrite R'. cbn [reads0]. rewrite F by (lia || apply Z.bits_0). apply upd_all; [lia|exact W].
  - destruct (aec_shows ae (m_reg m) ltac:(lia)) as (v & R & _).
    destruct (aec_write_ok ae (m_reg m) data 0xf (m_reg m) v ltac:(lia) R) as (v' & R' & F). rewrite R'. cbn [reads0]. rewrite Z.eqb_refl in F.
    rewrite F by (lia || apply Z.bits_0). apply upd_all; [lia|exact W].
Qed.
Theorem cfg_follows t nf h n i k m fs f data : (0 < nf)%nat -> Forall (fun fs => length fs = nf /\ Forall (fun f => msi_ok (w_ms f)) fs) h -> (n < length h)%nat ->
  turn t nf n = (i, k) -> In m (nth k (words t) []) -> nth_error h (taken t k n) = Some fs ->
  nth_error fs i = Some (host_writes f (m_src m) (m_reg m) data) -> msi_ok (w_ms f) ->
  (forall j, m_lo m <= j < m_lo m + m_width m -> Z.testbit (writable f (m_src m) (m_reg m)) j = true) -> (m_src m, m_reg m, m_lo m) <> (InMs, 0, 26) ->
  (forall j, m_at m <= j < m_at m + m_width m -> Z.testbit (left_out t k (host_writes f (m_src m) (m_reg m) data)) j = false) ->
  exists fn v, nth_error (tl_run t h tl_start) n = Some (fn, Z.of_nat k, v) /\ slice v (m_at m) (m_width m) = slice data (m_lo m) (m_width m).
Proof.
  intros Hn W L T Im E1 E2 M Wr X Lo. pose proof (cfg_ok t nf h n Hn W L) as C. rewrite T in C. destruct C as (fn & v & R & _ & fs' & f' & F1 & F2 & F3).
  assert (fs' = fs) by congruence. subst fs'. assert (f' = host_writes f (m_src m) (m_reg m) data) by congruence. subst f'.
  exists fn, v. split; [exact R|]. destruct F3 as (_ & F3 & _). rewrite (F3 m Im Lo). exact (host_write_read t k m f data Im M Wr X).
Qed.
