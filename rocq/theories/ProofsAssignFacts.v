From Verif Require Import Base BaseProofs ModelUtils SpecUtils ProofsUtils ModelAttrs ModelConfig ModelEnum ModelAssign SpecAssign ProofsAssign.

(** ** The registers of a bridge *)
Lemma mid_field x a b n : 0 <= a -> 0 <= b -> 0 <= n -> Z.land (Z.shiftr x a) (Z.shiftl (Z.ones n) b) = (x / 2 ^ (a + b)) mod 2 ^ n * 2 ^ b.
Proof.
  intros Ha Hb Hn. apply Z.bits_inj'. intros i Hi. rewrite Z.land_spec, Z.shiftr_spec, Z.shiftl_spec by lia.
  rewrite <- Z.shiftl_mul_pow2 by lia. rewrite Z.shiftl_spec by lia. rewrite Z.testbit_ones by lia.
  destruct (Z_lt_le_dec i b).
  - rewrite (Z.testbit_neg_r _ (i - b)) by lia. replace (0 <=? i - b) with false by (symmetry; apply Z.leb_gt; lia). cbn. apply Bool.andb_false_r.
  - destruct (Z_lt_le_dec (i - b) n).
    + rewrite Z.mod_pow2_bits_low by lia. rewrite Z.div_pow2_bits by lia.
      replace (0 <=? i - b) with true by (symmetry; apply Z.leb_le; lia). replace (i - b <? n) with true by (symmetry; apply Z.ltb_lt; lia).
      cbn [andb]. rewrite Bool.andb_true_r. f_equal; lia.
    + rewrite Z.mod_pow2_bits_high by lia. replace (i - b <? n) with false by (symmetry; apply Z.ltb_ge; lia). rewrite !Bool.andb_false_r. reflexivity.
Qed.
Lemma high12 x : Z.land (Z.shiftr x 16) 0xfff0 / 16 = (x / 2 ^ 20) mod 2 ^ 12.
Proof. change 0xfff0 with (Z.shiftl (Z.ones 12) 4). rewrite mid_field by lia. change (2 ^ 4) with 16. rewrite Z.div_mul by lia. reflexivity. Qed.
Lemma high4 x : Z.land (Z.shiftr x 8) 0xf0 / 16 = (x / 2 ^ 12) mod 2 ^ 4.
Proof. change 0xf0 with (Z.shiftl (Z.ones 4) 4). rewrite mid_field by lia. change (2 ^ 4) with 16 at 2. rewrite Z.div_mul by lia. reflexivity. Qed.
Lemma fits_ok n v w : fits n v = Ok w -> w = v.
Proof. unfold fits. destruct (_ && _); congruence. Qed.

Lemma window_eq b e r k : setup_bridge b (less1 e) = Ok r -> granular e -> 0 <= lim k b -> 0 < lim k e <= top k -> lim k b <= lim k e -> lim k b < top k ->
  window k r = (lim k b / granule k * granule k, lim k e - 1).
Proof.
  unfold setup_bridge. intros H Hg Hb He Hle Hlt. specialize (Hg k). destruct Hg as [q Hq].
  destruct (fits 16 (Z.shiftr (l_io b) 16)) as [ub|] eqn:E1; [|discriminate]. cbn [bind] in H.
  destruct (fits 16 (Z.shiftr (l_io (less1 e)) 16)) as [ul|] eqn:E2; [|discriminate]. cbn [bind] in H.
  destruct (fits 32 (Z.shiftr (l_pref b) 32)) as [pb|] eqn:E3; [|discriminate]. cbn [bind] in H.
  destruct (fits 32 (Z.shiftr (l_pref (less1 e)) 32)) as [pl|] eqn:E4; [|discriminate]. cbn [bind] in H.
  apply fits_ok in E1, E2, E3, E4. apply Ok_inj in H. subst r.
  rewrite Z.shiftr_div_pow2 in E1, E2, E3, E4 by lia.
  destruct b as [b1 b2 b3], e as [e1 e2 e3]. unfold less1 in *. cbn [l_io l_mem l_pref] in *.
  unfold window. destruct k; cbn [lim l_io l_mem l_pref r_io r_io_upper r_mem r_pref r_pref_base_upper r_pref_limit_upper fst snd granule top] in *;
    rewrite ?high12, ?high4; subst.
  - change (2 ^ 16) with 65536 in *. change (2 ^ 12) with 4096. change (2 ^ 4) with 16. change (2 ^ 32) with 4294967296 in *. f_equal; lia.
  - change (2 ^ 20) with 1048576 in *. change (2 ^ 12) with 4096. change (2 ^ 32) with 4294967296 in *. f_equal; lia.
  - change (2 ^ 20) with 1048576 in *. change (2 ^ 12) with 4096. change (2 ^ 32) with 4294967296 in *. change (2 ^ 64) with 18446744073709551616 in *. f_equal; lia.
Qed.

(** ** Enough space *)
Definition room (l l' : lims) (n : kind -> Z) : Prop := forall k, lim k l <= lim k l' <= lim k l + n k.
Definition need_of (k : kind) (ws : list (Z * kind * Z)) : Z := fold_right (fun '(_, k', s) n => (if kind_eqb k k' then 2 * s else 0) + n) 0 ws.
Lemma need_of_app k a b : need_of k (a ++ b) = need_of k a + need_of k b.
Proof. induction a as [|[[r k'] s] a IH]; cbn [app need_of fold_right]; [reflexivity|]. change (fold_right _ 0 (a ++ b)) with (need_of k (a ++ b)). rewrite IH. unfold need_of. lia. Qed.

Lemma dword_fits v : 0 <= v < 2 ^ 32 -> dword v = Ok v.
Proof. intros H. unfold dword. replace (0 <=? v) with true by (symmetry; apply Z.leb_le; lia). replace (v <? 2 ^ 32) with true by (symmetry; apply Z.ltb_lt; lia). reflexivity. Qed.
Lemma dword_addr raw addr n m : 0 <= m <= n -> (2 ^ n | addr) -> 0 <= addr -> addr + 2 ^ n <= 2 ^ 32 -> dword (Z.lor (Z.land raw (Z.ones m)) addr) = Ok (Z.lor (Z.land raw (Z.ones m)) addr).
Proof.
  intros Hm D Ha Hb. apply dword_fits. rewrite (lor_low raw addr n m) by auto.
  pose proof (Z.mod_pos_bound raw (2 ^ m) ltac:(apply Z.pow_pos_nonneg; lia)). pose proof (Z.pow_le_mono_r 2 m n ltac:(lia) ltac:(lia)). lia.
Qed.

Lemma take_room k size l n : size = 2 ^ n -> 0 <= n -> let '(addr, l1) := take k size l in
  lim k l <= addr < lim k l + size /\ (size | addr) /\ (forall k', lim k' l <= lim k' l1 <= lim k' l + if kind_eqb k' k then 2 * size else 0) /\ lim k l1 = addr + size.
Proof.
  intros Es Hn. destruct (take k size l) as [addr l1] eqn:E. destruct (take_ok _ _ _ _ _ n E Es Hn) as (B & D & ->).
  split; auto. split; auto. split.
  - intros k'. rewrite lim_put. destruct (kind_eqb k' k) eqn:Ek; [apply kind_eqb_eq in Ek; subst|]; lia.
  - rewrite lim_put. now rewrite (proj2 (kind_eqb_eq k k) eq_refl).
Qed.

Lemma need_of_nonneg k ws : Forall (fun '(_, _, s) => 0 <= s) ws -> 0 <= need_of k ws.
Proof. induction 1 as [|[[r k'] s] ws H _ IH]; cbn [need_of fold_right]; [lia|]. fold (need_of k ws). destruct (kind_eqb k k'); lia. Qed.
Lemma wanted_nonneg n : forall bars reg, (length bars <= n)%nat -> bars_ok bars -> Forall (fun '(_, _, s) => 0 <= s) (wanted reg bars).
Proof.
  induction n as [|n IH]; intros bars reg Hl H. { destruct bars; [constructor|cbn in Hl; lia]. }
  destruct bars as [|[raw size] rest]; [constructor|]. cbn in Hl. cbn [bars_ok wanted] in *. destruct H as (Hr & Hs & Hrest).
  destruct (size =? 0) eqn:E0; cbn [orb] in Hrest. { apply IH; [lia|auto]. }
  constructor.
  - destruct Hs as [->|(m & Hm & ->)]; [lia|]. apply Z.pow_nonneg; lia.
  - destruct (wide raw); cbn [negb] in Hrest. { destruct rest as [|[a b] rest]; [destruct Hrest|]. cbn in Hl. apply IH; [lia|auto]. } apply IH; [lia|auto].
Qed.

Lemma need_of_cons k reg k' s ws : need_of k ((reg, k', s) :: ws) = (if kind_eqb k k' then 2 * s else 0) + need_of k ws.
Proof. reflexivity. Qed.

Lemma bars_room n : forall bars reg l, (length bars <= n)%nat -> bars_ok bars -> (forall k, 0 < lim k l) -> (forall k, lim k l + need_of k (wanted reg bars) <= top k) ->
  exists a l', assign_bars reg bars l = Ok (a, l') /\ room l l' (fun k => need_of k (wanted reg bars)).
Proof.
  induction n as [|n IH]; intros bars reg l Hl Hok Hp Ht.
  { destruct bars; [|cbn in Hl; lia]. exists [], l. split; [reflexivity|]. intros k. cbn. lia. }
  destruct bars as [|[raw size] rest]. { exists [], l. split; [reflexivity|]. intros k. cbn. lia. }
  cbn in Hl. pose proof Hok as Hok'. cbn [bars_ok] in Hok. destruct Hok as (Hraw & Hsz & Hrest).
  cbn [assign_bars wanted] in *. destruct (size =? 0) eqn:E0.
  { cbn [orb] in Hrest. apply IH; auto; lia. }
  cbn [orb] in Hrest. apply Z.eqb_neq in E0. unfold wide, bar_kind in *. rewrite bit0. rewrite (bit_n raw 2), (bit_n raw 3) by lia.
  change (2 ^ 2) with 4. change (2 ^ 3) with 8.
  assert (TP : forall k, lim k l <= top k - 0 \/ True) by auto.
  destruct (Z.odd raw) eqn:Eo; cbn [negb andb] in *.
  - destruct (size_case _ _ Hsz E0 ltac:(lia)) as (m & Hm & Em & Hpos).
    pose proof (take_room Io size l m Em ltac:(lia)) as T. destruct (take Io size l) as [addr l1]. destruct T as (B & D & R1 & R2).
    pose proof (wanted_nonneg n rest (reg + 4) ltac:(lia) Hrest) as NN.
    assert (NK : forall k, 0 <= need_of k (wanted (reg + 4) rest)) by (intros k; now apply need_of_nonneg).
    assert (addr + size <= 2 ^ 32).
    { specialize (Ht Io). rewrite need_of_cons in Ht. cbn [kind_eqb top] in Ht. specialize (NK Io). lia. }
    change 3 with (Z.ones 2). rewrite (dword_addr raw addr m 2); [|lia|congruence|specialize (Hp Io); lia|lia]. cbn [bind].
    destruct (IH rest (reg + 4) l1) as (a & l2 & E2 & R3); auto; [lia| | |].
    { intros k. specialize (R1 k). specialize (Hp k). lia. }
    { intros k. specialize (R1 k). specialize (Ht k). rewrite need_of_cons in Ht. destruct (kind_eqb k Io); lia. }
    rewrite E2. cbn [bind]. eexists _, _. split; [reflexivity|]. intros k. specialize (R1 k). specialize (R3 k). cbv beta in R3. rewrite need_of_cons. specialize (NK k). lia.
  - destruct (Z.odd (raw / 4)) eqn:E4; cbn [negb andb] in *.
    + destruct rest as [|[raw2 size2] rest]; [destruct Hrest|]. cbn in Hl.
      destruct (size_case _ _ Hsz E0 ltac:(lia)) as (m & Hm & Em & Hpos).
      set (k0 := if Z.odd (raw / 8) then Pref else Mem) in *.
      pose proof (take_room k0 size l m Em ltac:(lia)) as T. destruct (take k0 size l) as [addr l1]. destruct T as (B & D & R1 & R2).
      pose proof (wanted_nonneg n rest (reg + 8) ltac:(lia) Hrest) as NN.
      assert (NK : forall k, 0 <= need_of k (wanted (reg + 8) rest)) by (intros k; now apply need_of_nonneg).
      destruct (IH rest (reg + 8) l1) as (a & l2 & E2 & R3); auto; [lia| | |].
      { intros k. specialize (R1 k). specialize (Hp k). lia. }
      { intros k. specialize (R1 k). specialize (Ht k). rewrite need_of_cons in Ht. destruct (kind_eqb k k0); lia. }
      rewrite E2. cbn [bind]. eexists _, _. split; [reflexivity|]. intros k. specialize (R1 k). specialize (R3 k). cbv beta in R3. rewrite need_of_cons. specialize (NK k). lia.
    + destruct (size_case _ _ Hsz E0 ltac:(lia)) as (m & Hm & Em & Hpos).
      pose proof (take_room Mem size l m Em ltac:(lia)) as T. destruct (take Mem size l) as [addr l1]. destruct T as (B & D & R1 & R2).
      pose proof (wanted_nonneg n rest (reg + 4) ltac:(lia) Hrest) as NN.
      assert (NK : forall k, 0 <= need_of k (wanted (reg + 4) rest)) by (intros k; now apply need_of_nonneg).
      assert (addr + size <= 2 ^ 32).
      { specialize (Ht Mem). rewrite need_of_cons in Ht. cbn [kind_eqb top] in Ht. specialize (NK Mem). lia. }
      change 15 with (Z.ones 4). rewrite (dword_addr raw addr m 4); [|lia|congruence|specialize (Hp Mem); lia|lia]. cbn [bind].
      destruct (IH rest (reg + 4) l1) as (a & l2 & E2 & R3); auto; [lia| | |].
      { intros k. specialize (R1 k). specialize (Hp k). lia. }
      { intros k. specialize (R1 k). specialize (Ht k). rewrite need_of_cons in Ht. destruct (kind_eqb k Mem); lia. }
      rewrite E2. cbn [bind]. eexists _, _. split; [reflexivity|]. intros k. specialize (R1 k). specialize (R3 k). cbv beta in R3. rewrite need_of_cons. specialize (NK k). lia.
Qed.

Lemma rom_room reg rom l : size_ok 11 (snd rom) -> (forall k, 0 < lim k l) -> (forall k, lim k l + need_of k (wanted_rom reg rom) <= top k) ->
  exists a l', assign_rom reg rom l = Ok (a, l') /\ room l l' (fun k => need_of k (wanted_rom reg rom)).
Proof.
  destruct rom as [raw size]. unfold assign_rom, wanted_rom. cbn [snd]. intros Hsz Hp Ht. destruct (size =? 0) eqn:E0.
  { exists [], l. split; [reflexivity|]. intros k. cbn. lia. }
  apply Z.eqb_neq in E0. destruct (size_case _ _ Hsz E0 ltac:(lia)) as (m & Hm & Em & Hpos).
  pose proof (take_room Mem size l m Em ltac:(lia)) as T. destruct (take Mem size l) as [addr l1]. destruct T as (B & D & R1 & R2).
  assert (addr + size <= 2 ^ 32). { specialize (Ht Mem). rewrite need_of_cons in Ht. cbn [kind_eqb top need_of fold_right] in Ht. lia. }
  change 0x7ff with (Z.ones 11). rewrite (dword_addr raw addr m 11); [|lia|congruence|specialize (Hp Mem); lia|lia]. cbn [bind].
  eexists _, _. split; [reflexivity|]. intros k. specialize (R1 k). rewrite need_of_cons. cbn [need_of fold_right]. lia.
Qed.

Lemma rom_nonneg reg rom : size_ok 11 (snd rom) -> Forall (fun '(_, _, s) => 0 <= s) (wanted_rom reg rom).
Proof.
  unfold wanted_rom. intros H. destruct (snd rom =? 0); [constructor|]. constructor; [|constructor].
  destruct H as [->|(m & Hm & ->)]; [lia|]. apply Z.pow_nonneg; lia.
Qed.
Lemma need_fn_eq k p : need_fn k p = need_of k (requests p).
Proof. reflexivity. Qed.
Lemma need_fn_nonneg k p : fn_ok p -> 0 <= need_fn k p.
Proof.
  intros [H0 H1]. rewrite need_fn_eq. apply need_of_nonneg. unfold requests.
  destruct (p_type p =? 0) eqn:E0; [|destruct (p_type p =? 1) eqn:E1; [|constructor]].
  - apply Z.eqb_eq in E0. destruct (H0 E0) as (A & B & _). apply Forall_app. split; [eapply wanted_nonneg; eauto|now apply rom_nonneg].
  - apply Z.eqb_eq in E1. destruct (H1 E1) as (A & B & _). apply Forall_app. split; [eapply wanted_nonneg; eauto|now apply rom_nonneg].
Qed.
Lemma both_room cnt rom p l : bars_ok (firstn cnt (p_bars p)) -> size_ok 11 (snd (p_rom p)) -> (forall k, 0 < lim k l) ->
  (forall k, lim k l + need_of k (wanted 0x10 (firstn cnt (p_bars p)) ++ wanted_rom rom (p_rom p)) <= top k) ->
  exists a l', ('(a, l) <- assign_bars 0x10 (firstn cnt (p_bars p)) l ;; '(b, l) <- assign_rom rom (p_rom p) l ;; Ok (a ++ b, l)) = Ok (a, l') /\
    room l l' (fun k => need_of k (wanted 0x10 (firstn cnt (p_bars p)) ++ wanted_rom rom (p_rom p))).
Proof.
  intros Hb Hr Hp Ht.
  assert (N2 : forall k, 0 <= need_of k (wanted_rom rom (p_rom p))) by (intros; apply need_of_nonneg, rom_nonneg; auto).
  destruct (bars_room _ (firstn cnt (p_bars p)) 0x10 l (Nat.le_refl _) Hb Hp) as (a & l1 & E1 & R1).
  { intros k. specialize (Ht k). specialize (N2 k). rewrite need_of_app in Ht. lia. }
  rewrite E1. cbn [bind].
  destruct (rom_room rom (p_rom p) l1 Hr) as (b & l2 & E2 & R2).
  { intros k. specialize (R1 k). specialize (Hp k). lia. }
  { intros k. specialize (Ht k). specialize (R1 k). rewrite need_of_app in Ht. cbv beta in R1. lia. }
  rewrite E2. cbn [bind]. eexists _, _. split; [reflexivity|]. intros k. specialize (R1 k). specialize (R2 k). cbv beta in *. rewrite need_of_app. lia.
Qed.
Lemma fn_room p l : fn_ok p -> (forall k, 0 < lim k l) -> (forall k, lim k l + need_fn k p <= top k) ->
  exists a l', assign_fn p l = Ok (a, l') /\ room l l' (fun k => need_fn k p).
Proof.
  intros [H0 H1] Hp Ht. unfold assign_fn, need_fn, requests in *. destruct (p_type p =? 0) eqn:E0; [|destruct (p_type p =? 1) eqn:E1].
  - apply Z.eqb_eq in E0. destruct (H0 E0) as (A & B & _). apply (both_room 6 0x30); auto.
  - apply Z.eqb_eq in E1. destruct (H1 E1) as (A & B & _). apply (both_room 2 0x38); auto.
  - exists [], l. split; [reflexivity|]. intros k. cbn. lia.
Qed.

Lemma setup_fits b e : (forall k, 0 <= lim k b) -> (forall k, 0 < lim k e <= top k) -> (forall k, lim k b <= lim k e) -> granular e -> (lim Io b < top Io) -> (lim Pref b < top Pref) ->
  exists r, setup_bridge b (less1 e) = Ok r.
Proof.
  intros Hb He Hle _ Hi Hq. unfold setup_bridge.
  assert (F : forall n v, 0 <= v < 2 ^ n -> fits n v = Ok v).
  { intros n v H. unfold fits. replace (0 <=? v) with true by (symmetry; apply Z.leb_le; lia). replace (v <? 2 ^ n) with true by (symmetry; apply Z.ltb_lt; lia). reflexivity. }
  pose proof (Hb Io). pose proof (Hb Pref). pose proof (He Io). pose proof (He Pref). cbn [lim top] in *.
  rewrite !Z.shiftr_div_pow2 by lia. unfold less1. cbn [l_io l_mem l_pref].
  change (2 ^ 64) with 18446744073709551616 in *. change (2 ^ 32) with 4294967296 in *.
  rewrite !F. { eexists; reflexivity. }
  all: change (2 ^ 32) with 4294967296; change (2 ^ 16) with 65536; lia.
Qed.

Lemma go_need_cons k p o ds : go_need k ((p, o) :: ds) = need_fn k p + match o with Some c => need k c + granule k | None => 0 end + go_need k ds.
Proof. reflexivity. Qed.
Lemma need_eq k n q m ds : need k (PBus n q m ds) = go_need k ds.
Proof. reflexivity. Qed.
Lemma granule_pos k : 0 < granule k.
Proof. destruct k; cbn; lia. Qed.
Lemma need_nonneg b : tree_ok b -> forall k, 0 <= need k b.
Proof.
  induction b as [n q m ds IH| |p ds IH|p c ds IHc IH] using pbus_ind2 with (Q := fun ds => go_ok ds -> forall k, 0 <= go_need k ds).
  - intros H k. rewrite need_eq. now apply IH.
  - intros _ k. cbn. lia.
  - intros [H1 [_ H2]] k. rewrite go_need_cons. pose proof (need_fn_nonneg k p H1). pose proof (IH H2 k). lia.
  - intros [H1 [H3 H2]] k. rewrite go_need_cons. pose proof (need_fn_nonneg k p H1). pose proof (IH H2 k). pose proof (IHc H3 k). pose proof (granule_pos k). lia.
Qed.
Lemma go_need_nonneg ds : go_ok ds -> forall k, 0 <= go_need k ds.
Proof. intros H k. rewrite <- (need_eq k 0 0 0). apply (need_nonneg (PBus 0 0 0 ds)). exact H. Qed.

Lemma assign_room b : forall l, tree_ok b -> (forall k, 0 < lim k l) -> (forall k, lim k l + need k b <= top k) ->
  exists t l', assign_bus b l = Ok (t, l') /\ room l l' (fun k => need k b).
Proof.
  induction b as [n q m ds IH| |p ds IH|p c ds IHc IH] using pbus_ind2 with
    (Q := fun ds => forall l, go_ok ds -> (forall k, 0 < lim k l) -> (forall k, lim k l + go_need k ds <= top k) ->
            exists t l', go_assign ds l = Ok (t, l') /\ room l l' (fun k => go_need k ds)).
  - intros l Hok Hp Ht. rewrite assign_bus_eq. apply IH; auto.
  - intros l _ Hp Ht. exists [], l. split; [reflexivity|]. intros k. cbn. lia.
  - intros l [Hf [_ Hok]] Hp Ht. rewrite go_assign_cons. pose proof (go_need_nonneg ds Hok) as ND.
    destruct (fn_room p l Hf Hp) as (own & l1 & E1 & R1). { intros k. specialize (Ht k). rewrite go_need_cons in Ht. specialize (ND k). lia. }
    rewrite E1. cbn [bind]. destruct (IH l1 Hok) as (r & l2 & E2 & R2).
    { intros k. specialize (R1 k). specialize (Hp k). lia. }
    { intros k. specialize (Ht k). rewrite go_need_cons in Ht. specialize (R1 k). cbv beta in R1. lia. }
    rewrite E2. cbn [bind]. eexists _, _. split; [reflexivity|]. intros k. rewrite go_need_cons. specialize (R1 k). specialize (R2 k). cbv beta in *. lia.
  - intros l [Hf [Hc Hok]] Hp Ht. rewrite go_assign_cons. pose proof (go_need_nonneg ds Hok) as ND. pose proof (need_nonneg c Hc) as NC.
    assert (Ht' : forall k, lim k l + need_fn k p + need k c + granule k + go_need k ds <= top k) by (intros k; specialize (Ht k); rewrite go_need_cons in Ht; lia).
    destruct (fn_room p l Hf Hp) as (own & l1 & E1 & R1). { intros k. specialize (Ht' k). specialize (ND k). specialize (NC k). pose proof (granule_pos k). lia. }
    rewrite E1. cbn [bind].
    assert (P1 : forall k, 0 < lim k l1) by (intros k; specialize (R1 k); specialize (Hp k); lia).
    destruct (IHc l1 Hc P1) as (kids & l2 & E2 & R2).
    { intros k. specialize (Ht' k). specialize (R1 k). specialize (ND k). pose proof (granule_pos k). cbv beta in *. lia. }
    rewrite E2. cbn [bind]. cbv zeta.
    assert (B : forall k, lim k l1 <= lim k (round l2) /\ lim k (round l2) + go_need k ds <= top k).
    { intros k. pose proof (round_bounds k l2) as [RB _]. specialize (R1 k). specialize (R2 k). specialize (Ht' k). cbv beta in *. lia. }
    assert (P2 : forall k, 0 < lim k (round l2)) by (intros k; specialize (B k); specialize (P1 k); lia).
    destruct (setup_fits l1 (round l2)) as (regs & Es).
    { intros k. specialize (P1 k). lia. }
    { intros k. specialize (P2 k). specialize (B k). specialize (ND k). lia. }
    { intros k. apply B. }
    { apply round_granular. }
    { specialize (Ht' Io). specialize (R1 Io). specialize (NC Io). specialize (ND Io). cbv beta in *. cbn [granule] in *. lia. }
    { specialize (Ht' Pref). specialize (R1 Pref). specialize (NC Pref). specialize (ND Pref). cbv beta in *. cbn [granule] in *. lia. }
    rewrite Es. cbn [bind]. destruct (IH (round l2) Hok P2) as (r & l3 & E3 & R3). { intros k. apply B. }
    rewrite E3. cbn [bind]. eexists _, _. split; [reflexivity|]. intros k. rewrite go_need_cons. pose proof (round_bounds k l2) as [RB _].
    specialize (R1 k). specialize (R2 k). specialize (R3 k). cbv beta in *. lia.
Qed.

(** ** Statements *)
Lemma fop_impl {A} (R R' : A -> A -> Prop) l : (forall x y, R x y -> R' x y) -> ForallOrdPairs R l -> ForallOrdPairs R' l.
Proof. intros H. induction 1 as [|a l Ha _ IH]; constructor; auto. eapply Forall_impl; [|apply Ha]. intros; now apply H. Qed.

Lemma assign_layout b l t l' : tree_ok b -> assign_bus b l = Ok (t, l') ->
  served b t /\ Forall aligned (flat_map allocs t) /\ ForallOrdPairs disjoint (flat_map allocs t) /\
  Forall (fun a => lim (a_kind a) l <= a_addr a /\ a_addr a + a_size a <= lim (a_kind a) l') (flat_map allocs t).
Proof.
  intros Hok H. apply assign_laid in H; auto. destruct H as [L S']. apply laid_facts in L. destruct L as (L1 & L2 & L3 & L4).
  split; auto. split; [|split].
  - eapply Forall_impl; [|apply L3]. intros a Ha. apply Ha.
  - eapply fop_impl; [|apply L4]. intros x y Hxy E. left. auto.
  - exact L2.
Qed.

Lemma assign_contained b l t l' : tree_ok b -> assign_bus b l = Ok (t, l') -> (forall k, 0 < lim k l) -> (forall k, lim k l' <= top k) ->
  Forall (fun '(r, below) => Forall (contains r) below) (flat_map bridges_of t).
Proof.
  intros Hok H Hp Ht. apply assign_laid in H; auto. destruct H as [L _]. pose proof (laid_facts _ _ _ _ L) as (L1 & L2 & L3 & L4).
  pose proof (laid_bridges _ _ _ _ L) as LB. eapply Forall_impl; [|apply LB].
  intros [r below] (pre & post & l1 & l2 & E & A1 & A2 & A3 & A4 & A5 & A6 & A7 & A8). cbn [fst snd] in *.
  rewrite E in L3. rewrite !Forall_app in L3. destruct L3 as (_ & L3 & _).
  rewrite Forall_forall in A7, L3. apply Forall_forall. intros a Ha. specialize (A7 a Ha). destruct (L3 a Ha) as (_ & Hs & _). destruct A7 as [W1 W2].
  set (k := a_kind a) in *. specialize (A1 k). specialize (A2 k). specialize (A3 k). pose proof (round_bounds k l2) as [RB _]. specialize (Hp k). specialize (Ht k).
  unfold contains. fold k. rewrite (window_eq l1 (round l2) r k); auto using round_granular; try lia. cbn [fst snd].
  pose proof (granule_pos k). pose proof (Z.mul_div_le (lim k l1) (granule k) ltac:(lia)). lia.
Qed.

Lemma assign_exclusive b l t l' : tree_ok b -> assign_bus b l = Ok (t, l') -> (forall k, 0 < lim k l) -> (forall k, lim k l' < top k) ->
  tidy b -> (forall k, (granule k | lim k l)) ->
  forall r below, In (r, below) (flat_map bridges_of t) ->
  exists pre post, flat_map allocs t = pre ++ below ++ post /\ Forall (fun a => ~ meets r a) (pre ++ post).
Proof.
  intros Hok H Hp Ht Htd Hg r below Hin. apply assign_laid in H; auto. destruct H as [L _]. pose proof (laid_facts _ _ _ _ L) as (L1 & L2 & L3 & L4).
  pose proof (laid_bridges _ _ _ _ L) as LB. rewrite Forall_forall in LB. specialize (LB _ Hin).
  destruct LB as (pre & post & l1 & l2 & E & A1 & A2 & A3 & A4 & A5 & A6 & A7 & A8). cbn [fst snd] in *.
  exists pre, post. split; auto.
  assert (WE : forall k, window k r = (lim k l1, lim k (round l2) - 1)).
  { intros k. specialize (A1 k). specialize (A2 k). specialize (A3 k). pose proof (round_bounds k l2) as [RB _]. specialize (Hp k). specialize (Ht k).
    rewrite (window_eq l1 (round l2) r k); auto using round_granular; try lia. f_equal.
    destruct (A5 (conj Htd Hg) k) as [q ->]. rewrite Z.div_mul; auto. pose proof (granule_pos k). lia. }
  apply Forall_app. split.
  - eapply Forall_impl; [|apply A6]. intros a [W1 W2] (x & Hx & P). unfold passes in P. rewrite WE in P. cbn [fst snd] in P. lia.
  - eapply Forall_impl; [|apply A8]. intros a [W1 W2] (x & Hx & P). unfold passes in P. rewrite WE in P. cbn [fst snd] in P. lia.
Qed.

Lemma assign_answers b l t l' : tree_ok b -> assign_bus b l = Ok (t, l') -> (forall k, 0 <= lim k l) -> (forall k, lim k l' <= top k) ->
  Forall (fun a => forall x, answers a x <-> a_addr a <= x < a_addr a + a_size a) (flat_map allocs t).
Proof.
  intros Hok H Hp Ht. apply assign_laid in H; auto. destruct H as [L _]. pose proof (laid_facts _ _ _ _ L) as (L1 & L2 & L3 & L4).
  rewrite Forall_forall in *. intros a Ha x. destruct (L2 a Ha) as [W1 W2]. destruct (L3 a Ha) as (D & S' & R).
  assert (0 <= a_addr a < 2 ^ 64) as Hr.
  { specialize (Hp (a_kind a)). specialize (Ht (a_kind a)). destruct (a_kind a); cbn [top] in *; change (2 ^ 64) with 18446744073709551616 in *; change (2 ^ 32) with 4294967296 in *; lia. }
  specialize (R Hr). unfold answers. set (s := a_size a) in *. set (q := register a / s) in *. rewrite <- R. clear - S'. split.
  - intros E. pose proof (Z.div_mod x s ltac:(lia)). pose proof (Z.mod_pos_bound x s S'). rewrite E in *. nia.
  - intros B. symmetry. apply (Z.div_unique_pos x s q (x - q * s)); nia.
Qed.

(** ** The bridge at the other end *)
Lemma w_io r f : windows (program r f) Io =
  (byte_mask_update (byte_mask_update (f_attr f fn_io_base) 2 (Z.shiftl (joined 8 (r_io r)) 8) 0xf000) 12 (Z.shiftl (joined 16 (r_io_upper r)) 16) (-1),
   byte_mask_update (Z.lor (byte_mask_update (f_attr f fn_io_limit) 2 (joined 8 (r_io r)) 0xf000) 0xfff) 12 (joined 16 (r_io_upper r)) (-1)).
Proof. reflexivity. Qed.
Lemma w_mem r f : windows (program r f) Mem =
  (byte_mask_update (f_attr f fn_mem_base) 12 (Z.shiftl (joined 16 (r_mem r)) 16) 0xfff00000,
   Z.lor (byte_mask_update (f_attr f fn_mem_limit) 12 (joined 16 (r_mem r)) 0xfff00000) 0xfffff).
Proof. reflexivity. Qed.
Lemma w_pref r f : windows (program r f) Pref =
  (byte_mask_update (byte_mask_update (f_attr f fn_prefetchable_mem_base) 12 (Z.shiftl (joined 16 (r_pref r)) 16) 0xfff00000) 240 (Z.shiftl (r_pref_base_upper r) 32) (-1),
   byte_mask_update (Z.lor (byte_mask_update (f_attr f fn_prefetchable_mem_limit) 12 (joined 16 (r_pref r)) 0xfff00000) 0xfffff) 240 (Z.shiftl (r_pref_limit_upper r) 32) (-1)).
Proof. reflexivity. Qed.

Definition splice (lo hi x n : Z) : Z := x / 2 ^ hi * 2 ^ hi + (n / 2 ^ lo) mod 2 ^ (hi - lo) * 2 ^ lo + x mod 2 ^ lo.
Lemma add_high a b n : 0 <= n -> 0 <= b < 2 ^ n -> a * 2 ^ n + b = Z.lor (Z.shiftl a n) b.
Proof.
  intros Hn Hb. rewrite <- Z.shiftl_mul_pow2 by lia. rewrite Z.add_nocarry_lxor, Z.lxor_lor; auto;
    apply Z.bits_inj'; intros i Hi; rewrite Z.land_spec, Z.bits_0, Z.shiftl_spec by lia; destruct (Z_lt_le_dec i n).
  1,3: rewrite (Z.testbit_neg_r a) by lia; reflexivity.
  all: replace b with (b mod 2 ^ n) by (apply Z.mod_small; lia); rewrite Z.mod_pow2_bits_high by lia; apply Bool.andb_false_r.
Qed.
Lemma splice_bits lo hi x n i : 0 <= lo <= hi -> 0 <= i -> Z.testbit (splice lo hi x n) i = Z.testbit (if (lo <=? i) && (i <? hi) then n else x) i.
Proof.
  intros H Hi. unfold splice.
  assert (0 < 2 ^ lo) by (apply Z.pow_pos_nonneg; lia). assert (0 < 2 ^ (hi - lo)) by (apply Z.pow_pos_nonneg; lia).
  pose proof (Z.mod_pos_bound x (2 ^ lo) ltac:(lia)). pose proof (Z.mod_pos_bound (n / 2 ^ lo) (2 ^ (hi - lo)) ltac:(lia)).
  assert (E : 2 ^ hi = 2 ^ (hi - lo) * 2 ^ lo) by (rewrite <- Z.pow_add_r by lia; f_equal; lia).
  rewrite <- Z.add_assoc. rewrite add_high; [|lia|rewrite E; nia]. rewrite add_high by lia.
  rewrite !Z.lor_spec, !Z.shiftl_spec by lia.
  destruct (Z.leb_spec lo i), (Z.ltb_spec i hi); cbn [andb].
  - rewrite (Z.testbit_neg_r _ (i - hi)) by lia. rewrite (Z.mod_pow2_bits_high x) by lia. rewrite Z.mod_pow2_bits_low by lia. rewrite Z.div_pow2_bits by lia.
    replace (i - lo + lo) with i by lia. cbn [orb]. apply Bool.orb_false_r.
  - rewrite (Z.mod_pow2_bits_high x) by lia. rewrite Z.mod_pow2_bits_high by lia. rewrite Z.div_pow2_bits by lia. replace (i - hi + hi) with i by lia.
    rewrite !Bool.orb_false_r. reflexivity.
  - rewrite (Z.testbit_neg_r _ (i - hi)) by lia. rewrite (Z.testbit_neg_r _ (i - lo)) by lia. rewrite Z.mod_pow2_bits_low by lia. reflexivity.
  - lia.
Qed.
Lemma bmu_splice x m n bm lo hi : 0 <= m -> 0 <= lo <= hi -> (forall i, 0 <= i -> Z.testbit m (i / 8) && Z.testbit bm i = (lo <=? i) && (i <? hi)) ->
  byte_mask_update x m n bm = splice lo hi x n.
Proof.
  intros Hm Hlo H. apply Z.bits_inj'. intros i Hi. rewrite byte_mask_update_spec, splice_bits by lia. rewrite <- H by lia.
  destruct (Z.testbit m (i / 8)), (Z.testbit bm i); reflexivity.
Qed.
Lemma bmu_io x n : byte_mask_update x 2 n 0xf000 = splice 12 16 x n.
Proof.
  apply bmu_splice; try lia. intros i Hi. change 0xf000 with (Z.shiftl (Z.ones 4) 12). rewrite Z.shiftl_spec, Z.testbit_ones by lia.
  change 2 with (2 ^ 1). rewrite Z.pow2_bits_eqb by lia. lia.
Qed.
Lemma bmu_io_upper x n : byte_mask_update x 12 n (-1) = splice 16 32 x n.
Proof.
  apply bmu_splice; try lia. intros i Hi. rewrite Z.bits_m1 by lia. change 12 with (Z.shiftl (Z.ones 2) 2). rewrite Z.shiftl_spec, Z.testbit_ones by lia. lia.
Qed.
Lemma bmu_mem x n : byte_mask_update x 12 n 0xfff00000 = splice 20 32 x n.
Proof.
  apply bmu_splice; try lia. intros i Hi. change 12 with (Z.shiftl (Z.ones 2) 2). change 0xfff00000 with (Z.shiftl (Z.ones 12) 20).
  rewrite !Z.shiftl_spec, !Z.testbit_ones by lia. lia.
Qed.
Lemma bmu_upper x n : byte_mask_update x 240 n (-1) = splice 32 64 x n.
Proof.
  apply bmu_splice; try lia. intros i Hi. rewrite Z.bits_m1 by lia. change 240 with (Z.shiftl (Z.ones 4) 4). rewrite Z.shiftl_spec, Z.testbit_ones by lia. lia.
Qed.
Lemma fill x n : 0 <= n -> Z.lor x (Z.ones n) = x / 2 ^ n * 2 ^ n + Z.ones n.
Proof.
  intros Hn. pose proof (Z.pow_pos_nonneg 2 n ltac:(lia) Hn). assert (0 <= Z.ones n < 2 ^ n) by (rewrite Z.ones_equiv; lia). rewrite add_high by lia.
  apply Z.bits_inj'. intros i Hi. rewrite !Z.lor_spec, Z.shiftl_spec, Z.testbit_ones by lia.
  destruct (Z_lt_le_dec i n).
  - replace (i <? n) with true by (symmetry; apply Z.ltb_lt; lia). replace (0 <=? i) with true by (symmetry; apply Z.leb_le; lia). cbn [andb]. now rewrite !Bool.orb_true_r.
  - rewrite Z.div_pow2_bits by lia. replace (i - n + n) with i by lia. reflexivity.
Qed.

Definition regs_range (r : bregs) : Prop :=
  (0 <= fst (r_io r) < 2 ^ 8 /\ 0 <= snd (r_io r) < 2 ^ 8) /\ (0 <= fst (r_io_upper r) < 2 ^ 16 /\ 0 <= snd (r_io_upper r) < 2 ^ 16) /\
  (0 <= fst (r_mem r) < 2 ^ 16 /\ 0 <= snd (r_mem r) < 2 ^ 16) /\ (0 <= fst (r_pref r) < 2 ^ 16 /\ 0 <= snd (r_pref r) < 2 ^ 16) /\
  0 <= r_pref_base_upper r < 2 ^ 32 /\ 0 <= r_pref_limit_upper r < 2 ^ 32.
Lemma setup_range b e r : setup_bridge b e = Ok r -> regs_range r.
Proof.
  unfold setup_bridge. intros H.
  assert (F : forall n v w, fits n v = Ok w -> 0 <= w < 2 ^ n).
  { intros n v w E. unfold fits in E. destruct ((0 <=? v) && (v <? 2 ^ n)) eqn:X; [|discriminate]. apply Ok_inj in E. subst w. apply andb_prop in X. destruct X as [X1 X2].
    apply Z.leb_le in X1. apply Z.ltb_lt in X2. lia. }
  destruct (fits 16 (Z.shiftr (l_io b) 16)) as [ub|] eqn:E1; [|discriminate]. cbn [bind] in H.
  destruct (fits 16 (Z.shiftr (l_io e) 16)) as [ul|] eqn:E2; [|discriminate]. cbn [bind] in H.
  destruct (fits 32 (Z.shiftr (l_pref b) 32)) as [pb|] eqn:E3; [|discriminate]. cbn [bind] in H.
  destruct (fits 32 (Z.shiftr (l_pref e) 32)) as [pl|] eqn:E4; [|discriminate]. cbn [bind] in H.
  apply F in E1, E2, E3, E4. apply Ok_inj in H. subst r. unfold regs_range. cbn [r_io r_io_upper r_mem r_pref r_pref_base_upper r_pref_limit_upper fst snd].
  change 0xf0 with (Z.shiftl (Z.ones 4) 4). change 0xfff0 with (Z.shiftl (Z.ones 12) 4). rewrite !mid_field by lia.
  change (2 ^ (8 + 4)) with 4096. change (2 ^ (16 + 4)) with 1048576. change (2 ^ 4) with 16. change (2 ^ 12) with 4096. change (2 ^ 8) with 256. change (2 ^ 16) with 65536 in *.
  repeat split; lia.
Qed.
Lemma program_windows r f : regs_range r -> whole f -> forall k, windows (program r f) k = window k r.
Proof.
  intros (R1 & R2 & R3 & R4 & R5 & R6) W k. destruct (W k) as (x & y & Hx & Hy & E). unfold windows in E.
  apply pair_equal_spec in E. destruct E as [E1 E2].
  destruct r as [[i1 i2] [u1 u2] [m1 m2] [p1 p2] pb pl]. cbn [fst snd r_io r_io_upper r_mem r_pref r_pref_base_upper r_pref_limit_upper] in *.
  destruct k; cbn [base_attr limit_attr granule top] in *;
    [rewrite w_io|rewrite w_mem|rewrite w_pref]; cbn [window fst snd r_io r_io_upper r_mem r_pref r_pref_base_upper r_pref_limit_upper];
    rewrite ?bmu_io, ?bmu_io_upper, ?bmu_mem, ?bmu_upper; change 0xfffff with (Z.ones 20); change 0xfff with (Z.ones 12); rewrite ?fill by lia;
    rewrite ?Z.shiftl_mul_pow2 by lia; rewrite ?E1, ?E2; unfold splice, joined; cbn [fst snd].
  - clear - R1 R2 Hx Hy. change (Z.ones 12) with 4095. change (2 ^ (16 - 12)) with 16. change (2 ^ (32 - 16)) with 65536. change (2 ^ 32) with 4294967296 in *. change (2 ^ 16) with 65536 in *. change (2 ^ 12) with 4096 in *. change (2 ^ 8) with 256 in *.
    change (4294967296 / 4096) with 1048576 in *. f_equal; lia.
  - clear - R3 Hx Hy. change (Z.ones 20) with 1048575. change (2 ^ (32 - 20)) with 4096. change (2 ^ 32) with 4294967296 in *. change (2 ^ 16) with 65536 in *. change (2 ^ 20) with 1048576 in *.
    change (4294967296 / 1048576) with 4096 in *. f_equal; lia.
  - clear - R4 R5 R6 Hx Hy. change (Z.ones 20) with 1048575. change (2 ^ (32 - 20)) with 4096. change (2 ^ (64 - 32)) with 4294967296.
    change (2 ^ 64) with 18446744073709551616 in *. change (2 ^ 32) with 4294967296 in *. change (2 ^ 16) with 65536 in *. change (2 ^ 20) with 1048576 in *.
    change (18446744073709551616 / 1048576) with 17592186044416 in *. f_equal; lia.
Qed.
