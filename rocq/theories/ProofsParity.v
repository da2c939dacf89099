From Verif Require Import Base BaseProofs Bits ModelUtils ModelFrames SpecParity.

Definition fold8 (d : Z) : Z :=
  let d := Z.lxor d (Z.shiftr d 4) in let d := Z.lxor d (Z.shiftr d 2) in Z.lxor d (Z.shiftr d 1).
Lemma fold8_bit d k : 0 <= k -> Z.testbit (fold8 d) (8 * k) = byte_parity d k.
Proof.
  intros H. unfold fold8, byte_parity. cbn [map fold_right]. cbv zeta.
  repeat (rewrite ?Z.lxor_spec, ?Z.shiftr_spec by lia).
  repeat match goal with |- context [Z.testbit d ?i] => progress ring_simplify i end.
  repeat match goal with |- context [Z.testbit d ?i] => let b := fresh "b" in set (b := Z.testbit d i); clearbody b end.
  repeat match goal with b : bool |- _ => destruct b; try reflexivity end.
Qed.
Lemma zbool_land_pow d n : 0 <= n -> zbool (Z.land d (2 ^ n)) = Z.testbit d n.
Proof.
  intros H. unfold zbool. destruct (Z.testbit d n) eqn:E.
  - destruct (Z.eqb_spec (Z.land d (2 ^ n)) 0) as [Z0|]; [|reflexivity]. exfalso.
    assert (T : Z.testbit (Z.land d (2 ^ n)) n = true) by (rewrite Z.land_spec, E, Z.pow2_bits_true by lia; reflexivity).
    rewrite Z0, Z.bits_0 in T. discriminate.
  - replace (Z.land d (2 ^ n)) with 0; [reflexivity|]. symmetry. apply Z.bits_inj'. intros i Hi. rewrite Z.land_spec, Z.bits_0.
    rewrite Z.pow2_bits_eqb by lia. destruct (Z.eqb_spec n i) as [->|]; [rewrite E|]; apply andb_false_r || reflexivity.
Qed.
Definition nib (a b c e : bool) : Z := Z.b2z a + 2 * Z.b2z b + 4 * Z.b2z c + 8 * Z.b2z e.
Lemma dword_parity_nib d : dword_parity d = nib (byte_parity d 0) (byte_parity d 1) (byte_parity d 2) (byte_parity d 3).
Proof.
  unfold dword_parity. fold (fold8 d). cbv zeta. change (Z.lxor _ (Z.shiftr _ 1)) with (fold8 d).
  change 0x100 with (2 ^ 8). change 0x10000 with (2 ^ 16). change 0x1000000 with (2 ^ 24). rewrite !zbool_land_pow by lia.
  rewrite <- !fold8_bit by lia. change (8 * 0) with 0. change (8 * 1) with 8. change (8 * 2) with 16. change (8 * 3) with 24.
  replace (Z.land (fold8 d) 1) with (Z.b2z (Z.testbit (fold8 d) 0)) by (rewrite Z.bit0_odd, (Z.land_ones _ 1) by lia; symmetry; apply Zmod_odd).
  destruct (Z.testbit (fold8 d) 0), (Z.testbit (fold8 d) 8), (Z.testbit (fold8 d) 16), (Z.testbit (fold8 d) 24); reflexivity.
Qed.
Lemma dword_parity_ok d : 0 <= dword_parity d < 16 /\ forall k, 0 <= k < 4 -> Z.testbit (dword_parity d) k = byte_parity d k.
Proof.
  rewrite dword_parity_nib. set (a := byte_parity d 0). set (b := byte_parity d 1). set (c := byte_parity d 2). set (e := byte_parity d 3). split.
  - destruct a, b, c, e; cbn; lia.
  - intros k Hk. assert (K : k = 0 \/ k = 1 \/ k = 2 \/ k = 3) by lia. destruct K as [->|[->|[->| ->]]]; fold a b c e; destruct a, b, c, e; reflexivity.
Qed.
Lemma byte_parity_lxor d e k : byte_parity (Z.lxor d e) k = xorb (byte_parity d k) (byte_parity e k).
Proof.
  unfold byte_parity. generalize [0; 1; 2; 3; 4; 5; 6; 7]. induction l as [|i l IH]; [reflexivity|]. cbn [map fold_right]. rewrite IH, Z.lxor_spec.
  destruct (Z.testbit d _), (Z.testbit e _), (fold_right xorb false (map (fun i => Z.testbit d _) l)), (fold_right xorb false (map (fun i => Z.testbit e _) l)); reflexivity.
Qed.
Lemma byte_parity_pow b k : 0 <= b -> 0 <= k -> byte_parity (2 ^ b) k = (b / 8 =? k).
Proof.
  intros Hb Hk. unfold byte_parity. cbn [map fold_right]. rewrite !Z.pow2_bits_eqb by lia.
  destruct (Z.eqb_spec (b / 8) k) as [E|E].
  - subst k. assert (b = 8 * (b / 8) + b mod 8) by (apply Z.div_mod; lia). assert (0 <= b mod 8 < 8) by (apply Z.mod_pos_bound; lia).
    set (q := b / 8) in *. set (r := b mod 8) in *. clearbody q r. subst b.
    assert (K : r = 0 \/ r = 1 \/ r = 2 \/ r = 3 \/ r = 4 \/ r = 5 \/ r = 6 \/ r = 7) by lia.
    assert (Q : forall x y, (8 * q + x =? 8 * q + y) = (x =? y)) by (intros; destruct (Z.eqb_spec x y), (Z.eqb_spec (8 * q + x) (8 * q + y)); lia).
    rewrite !Q. destruct K as [->|[->|[->|[->|[->|[->|[->| ->]]]]]]]; reflexivity.
  - assert (N : forall i, 0 <= i < 8 -> (b =? 8 * k + i) = false).
    { intros i Hi. apply Z.eqb_neq. intros ->. apply E. symmetry. apply (Z.div_unique _ _ _ i); lia. }
    rewrite !N by lia. reflexivity.
Qed.
Lemma odd_flip_pow b : 0 <= b < 32 -> odd_flip (2 ^ b).
Proof.
  intros H. exists (b / 8). assert (0 <= b / 8 < 4) by (split; [apply Z.div_pos; lia|apply Z.div_lt_upper_bound; lia]).
  split; [lia|]. rewrite byte_parity_pow by lia. apply Z.eqb_refl.
Qed.

Lemma parity_loop_ok : forall fuel d j p, 0 <= d < 2 ^ (8 * (Z.of_nat fuel - 1)) -> 0 <= j -> 0 <= p ->
  exists q, parity_loop fuel d (Z.shiftl 1 j) p = Ok q /\ 0 <= q /\ forall k, 0 <= k ->
    Z.testbit q k = Z.testbit p k || ((j <=? k) && Z.testbit d (8 * (k - j))).
Proof.
  induction fuel as [|f IH]; intros d j p Hd Hj Hp.
  - cbn in Hd. lia.
  - cbn [parity_loop]. destruct (zbool d) eqn:E.
    + replace (Z.shiftl (Z.shiftl 1 j) 1) with (Z.shiftl 1 (j + 1)) by (rewrite Z.shiftl_shiftl by lia; reflexivity).
      change 1 with (2 ^ 0) at 3. rewrite zbool_land_pow by lia.
      set (p' := if Z.testbit d 0 then Z.lor p (Z.shiftl 1 j) else p).
      assert (Hp' : 0 <= p') by (unfold p'; destruct (Z.testbit d 0); [apply Z.lor_nonneg; split; [lia|apply Z.shiftl_nonneg; lia]|lia]).
      assert (Hf : (f <> 0)%nat).
      { intros ->. cbn in Hd. unfold zbool in E. destruct (Z.eqb_spec d 0); [discriminate|lia]. }
      destruct (IH (Z.shiftr d 8) (j + 1) p') as (q & Eq & Hq & B); try lia.
      { rewrite Z.shiftr_div_pow2 by lia. split; [apply Z.div_pos; lia|]. apply Z.div_lt_upper_bound; [lia|].
        rewrite <- Z.pow_add_r by lia. eapply Z.lt_le_trans; [apply Hd|]. apply Z.pow_le_mono_r; lia. }
      exists q. split; [exact Eq|]. split; [exact Hq|]. intros k Hk. rewrite B by lia.
      assert (P : Z.testbit p' k = Z.testbit p k || ((j =? k) && Z.testbit d 0)).
      { unfold p'. destruct (Z.testbit d 0); [|rewrite andb_false_r, orb_false_r; reflexivity].
        rewrite Z.lor_spec, Z.shiftl_1_l, Z.pow2_bits_eqb by lia. rewrite andb_true_r. reflexivity. }
      rewrite P. destruct (Z.eqb_spec j k) as [->|N].
      * replace (k + 1 <=? k) with false by lia. replace (k <=? k) with true by lia. rewrite Z.sub_diag, Z.mul_0_r. cbn [andb]. rewrite orb_false_r. reflexivity.
      * cbn [andb]. rewrite orb_false_r. destruct (Z.leb_spec (j + 1) k), (Z.leb_spec j k); try lia; [|reflexivity].
        rewrite Z.shiftr_spec by lia. do 2 f_equal. replace (8 * (k - j)) with (8 * (k - (j + 1)) + 8) by lia. reflexivity.
    + exists p. split; [reflexivity|]. split; [exact Hp|]. intros k Hk. unfold zbool in E. destruct (Z.eqb_spec d 0) as [->|]; [|discriminate].
      rewrite Z.bits_0, andb_false_r, orb_false_r. reflexivity.
Qed.
Lemma parity_ok d : 0 <= d -> exists p, parity d = Ok p /\ 0 <= p /\ forall k, 0 <= k -> Z.testbit p k = byte_parity d k.
Proof.
  intros H. unfold parity. cbv zeta. change (Z.lxor _ (Z.shiftr _ 1)) with (fold8 d).
  assert (N : 0 <= fold8 d).
  { unfold fold8. cbv zeta. assert (K : forall x n, 0 <= x -> 0 <= Z.lxor x (Z.shiftr x n)).
    { intros x n Hx. apply Z.lxor_nonneg. split; intros _; [apply Z.shiftr_nonneg|]; lia. }
    auto. }
  set (fuel := S (S (Z.to_nat (Z.log2 (fold8 d))))).
  destruct (parity_loop_ok fuel (fold8 d) 0 0) as (q & E & Hq & B); try lia.
  - split; [exact N|]. unfold fuel. destruct (Z.eq_dec (fold8 d) 0) as [->|Z0]; [cbn; lia|].
    pose proof (Z.log2_nonneg (fold8 d)). pose proof (Z.log2_spec (fold8 d) ltac:(lia)) as [_ L]. eapply Z.lt_le_trans; [exact L|].
    apply Z.pow_le_mono_r; lia.
  - exists q. change (Z.shiftl 1 0) with 1 in E. split; [exact E|]. split; [exact Hq|]. intros k Hk. rewrite B by lia.
    rewrite Z.bits_0, Z.sub_0_r, fold8_bit by lia. replace (0 <=? k) with true by lia. reflexivity.
Qed.

Lemma zlist_eqb_eq a : forall b, zlist_eqb a b = true <-> a = b.
Proof.
  induction a as [|x a IH]; intros [|y b]; cbn; try (split; congruence). rewrite andb_true_iff, IH, Z.eqb_eq. split; [intros [-> ->]; reflexivity|]. intros E. injection E. auto.
Qed.
Lemma zlist_eqb_neq a b : zlist_eqb a b = false <-> a <> b.
Proof. rewrite <- not_true_iff_false, zlist_eqb_eq. reflexivity. Qed.

Lemma dword_parity_flip d e : odd_flip e -> dword_parity (Z.lxor d e) <> dword_parity d.
Proof.
  intros (k & Hk & O) E. assert (T : Z.testbit (dword_parity (Z.lxor d e)) k = Z.testbit (dword_parity d) k) by (rewrite E; reflexivity).
  rewrite !(proj2 (dword_parity_ok _)) in T by lia. rewrite byte_parity_lxor, O in T. destruct (byte_parity d k); discriminate.
Qed.
Lemma dword_parity_even d e : (forall k, 0 <= k < 4 -> byte_parity e k = false) -> dword_parity (Z.lxor d e) = dword_parity d.
Proof. intros H. rewrite !dword_parity_nib, !byte_parity_lxor, !H, !xorb_false_r by lia. reflexivity. Qed.
Lemma flip_split i e l d : nth_error l i = Some d -> exists a b, l = a ++ d :: b /\ flip i e l = a ++ Z.lxor d e :: b /\ length a = i.
Proof.
  intros H. destruct (nth_error_split l i H) as (a & b & -> & L). exists a, b. split; [reflexivity|]. split; [|exact L]. clear H. subst i.
  unfold flip. induction a as [|x a IH]; [reflexivity|]. cbn [length app firstn skipn] in *. rewrite IH. reflexivity.
Qed.
Lemma data_parity_flip i e l d : nth_error l i = Some d -> odd_flip e -> data_parity (flip i e l) <> data_parity l.
Proof.
  intros H O. destruct (flip_split i e l d H) as (a & b & -> & -> & _). unfold data_parity. rewrite !map_app. cbn [map]. intros E.
  apply app_inv_head in E. injection E as E. apply (dword_parity_flip d e O). apply (f_equal (fun x => Z.lxor x 15)) in E.
  rewrite !Z.lxor_assoc, Z.lxor_nilpotent, !Z.lxor_0_r in E. exact E.
Qed.
Lemma data_parity_even i e l d : nth_error l i = Some d -> (forall k, 0 <= k < 4 -> byte_parity e k = false) -> data_parity (flip i e l) = data_parity l.
Proof.
  intros H O. destruct (flip_split i e l d H) as (a & b & -> & -> & _). unfold data_parity. rewrite !map_app. cbn [map].
  rewrite dword_parity_even by exact O. reflexivity.
Qed.
(** The bits of the inverted parity nibble. *)
Lemma data_parity_bits l i d k : nth_error l i = Some d -> 0 <= k < 4 -> Z.testbit (nth i (data_parity l) 0) k = negb (byte_parity d k).
Proof.
  intros H Hk. rewrite (nth_error_nth (data_parity l) i 0 (map_nth_error _ _ _ H)). rewrite Z.lxor_spec, (proj2 (dword_parity_ok d)) by exact Hk.
  assert (K : k = 0 \/ k = 1 \/ k = 2 \/ k = 3) by lia. destruct K as [->|[->|[->| ->]]]; cbn; apply xorb_true_r.
Qed.

Lemma us_parity_ok f : us_check_parity (us_update_parity f) = true.
Proof. apply zlist_eqb_eq. reflexivity. Qed.
Lemma us_detect f i d e : us_check_parity f = true -> nth_error (us_data f) i = Some d -> odd_flip e ->
  us_check_parity (with_us (flip i e (us_data f)) (us_parity f) f) = false.
Proof.
  unfold us_check_parity. cbn. rewrite zlist_eqb_eq, zlist_eqb_neq. intros -> H O E. symmetry in E. exact (data_parity_flip i e _ d H O E).
Qed.
Lemma us_detect_par f p : us_check_parity f = true -> p <> us_parity f -> us_check_parity (with_us (us_data f) p f) = false.
Proof. unfold us_check_parity. cbn. rewrite zlist_eqb_eq, zlist_eqb_neq. intros A N E. apply N. rewrite E, A. reflexivity. Qed.
Lemma s10_parity_ok f : s10_check_parity (s10_update_parity f) = true.
Proof. apply zlist_eqb_eq. reflexivity. Qed.
Lemma s10_detect f i d e : s10_check_parity f = true -> nth_error (s_data f) i = Some d -> odd_flip e ->
  s10_check_parity (with_s10 (flip i e (s_data f)) (s_parity f) f) = false.
Proof.
  unfold s10_check_parity. cbn. rewrite zlist_eqb_eq, zlist_eqb_neq. intros -> H O E. symmetry in E. exact (data_parity_flip i e _ d H O E).
Qed.
Lemma s10_detect_par f p : s10_check_parity f = true -> p <> s_parity f -> s10_check_parity (with_s10 (s_data f) p f) = false.
Proof. unfold s10_check_parity. cbn. rewrite zlist_eqb_eq, zlist_eqb_neq. intros A N E. apply N. rewrite E, A. reflexivity. Qed.

Lemma pt_parity_ok f : 0 <= t_hdr f -> exists f', pt_update_parity f = Ok f' /\ pt_check_parity f' = Ok true /\
  f' = with_pt (t_prfx f) (t_hdr f) (t_data f) (t_prfx_par f') (t_hdr_par f') (t_parity f') f.
Proof.
  intros H. destruct (parity_ok (t_hdr f) H) as (p & E & _). unfold pt_update_parity. rewrite E. cbn [bind]. eexists. split; [reflexivity|].
  split; [|reflexivity]. unfold pt_check_parity, with_pt. cbn [t_prfx t_hdr t_data t_prfx_par t_hdr_par t_parity]. replace (zlist_eqb _ _) with true by (symmetry; apply zlist_eqb_eq; reflexivity).
  rewrite E. cbn [bind]. rewrite !Z.eqb_refl. reflexivity.
Qed.
Lemma pt_true f : pt_check_parity f = Ok true -> t_parity f = data_parity (t_data f) /\ parity (t_hdr f) = Ok (t_hdr_par f) /\ t_prfx_par f = dword_parity (t_prfx f).
Proof.
  unfold pt_check_parity. destruct (zlist_eqb _ _) eqn:E; [|discriminate]. apply zlist_eqb_eq in E. destruct (parity (t_hdr f)) as [p|]; cbn [bind]; [|discriminate].
  intros H. assert (K : (t_hdr_par f =? p) && (t_prfx_par f =? dword_parity (t_prfx f)) = true) by congruence. apply andb_prop in K. destruct K as [A B].
  apply Z.eqb_eq in A, B. subst p. auto.
Qed.
Lemma pt_detect f i d e : pt_check_parity f = Ok true -> nth_error (t_data f) i = Some d -> odd_flip e ->
  pt_check_parity (with_pt (t_prfx f) (t_hdr f) (flip i e (t_data f)) (t_prfx_par f) (t_hdr_par f) (t_parity f) f) = Ok false.
Proof.
  intros C H O. apply pt_true in C. destruct C as (A & _). unfold pt_check_parity, with_pt. cbn [t_prfx t_hdr t_data t_prfx_par t_hdr_par t_parity]. rewrite A.
  replace (zlist_eqb _ _) with false; [reflexivity|]. symmetry. apply zlist_eqb_neq. intros E. symmetry in E. exact (data_parity_flip i e _ d H O E).
Qed.
Lemma pt_detect_hdr f e : 0 <= t_hdr f -> 0 <= e -> pt_check_parity f = Ok true -> (exists k, 0 <= k /\ byte_parity e k = true) ->
  pt_check_parity (with_pt (t_prfx f) (Z.lxor (t_hdr f) e) (t_data f) (t_prfx_par f) (t_hdr_par f) (t_parity f) f) = Ok false.
Proof.
  intros Hh He C (k & Hk & O). apply pt_true in C. destruct C as (A & B & _). unfold pt_check_parity, with_pt. cbn [t_prfx t_hdr t_data t_prfx_par t_hdr_par t_parity].
  replace (zlist_eqb _ _) with true by (symmetry; apply zlist_eqb_eq; exact A).
  destruct (parity_ok (t_hdr f) Hh) as (p & E1 & _ & P1). destruct (parity_ok (Z.lxor (t_hdr f) e)) as (q & E2 & _ & P2); [apply Z.lxor_nonneg; tauto|].
  rewrite E2. cbn [bind]. assert (p = t_hdr_par f) by congruence. subst p. replace (t_hdr_par f =? q) with false; [reflexivity|]. symmetry. apply Z.eqb_neq. intros <-.
  specialize (P1 k Hk). rewrite P2, byte_parity_lxor, O in P1 by exact Hk. destruct (byte_parity (t_hdr f) k); discriminate.
Qed.
Lemma pt_detect_prfx f e : 0 <= t_hdr f -> pt_check_parity f = Ok true -> odd_flip e ->
  pt_check_parity (with_pt (Z.lxor (t_prfx f) e) (t_hdr f) (t_data f) (t_prfx_par f) (t_hdr_par f) (t_parity f) f) = Ok false.
Proof.
  intros Hh C O. apply pt_true in C. destruct C as (A & B & D). unfold pt_check_parity, with_pt. cbn [t_prfx t_hdr t_data t_prfx_par t_hdr_par t_parity].
  replace (zlist_eqb _ _) with true by (symmetry; apply zlist_eqb_eq; exact A). rewrite B. cbn [bind]. rewrite Z.eqb_refl. cbn [andb]. f_equal.
  apply Z.eqb_neq. rewrite D. intros E. symmetry in E. exact (dword_parity_flip _ _ O E).
Qed.
Lemma pt_detect_par f xp hp p : 0 <= t_hdr f -> pt_check_parity f = Ok true -> (xp, hp, p) <> (t_prfx_par f, t_hdr_par f, t_parity f) ->
  pt_check_parity (with_pt (t_prfx f) (t_hdr f) (t_data f) xp hp p f) = Ok false.
Proof.
  intros Hh C N. apply pt_true in C. destruct C as (A & B & D). unfold pt_check_parity, with_pt. cbn [t_prfx t_hdr t_data t_prfx_par t_hdr_par t_parity]. destruct (zlist_eqb p _) eqn:E; [|reflexivity].
  apply zlist_eqb_eq in E. rewrite B. cbn [bind]. f_equal. apply not_true_iff_false. intros T. apply andb_prop in T. rewrite !Z.eqb_eq in T. apply N. destruct T. congruence.
Qed.
