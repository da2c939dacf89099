(** The host probing BARs. *)
From Verif Require Import Base BaseProofs Bits ModelUtils ModelTlp ModelRegion ModelTags ModelAttrs ModelCaps ModelCapList ModelConfig ModelFunction ModelHost
  ModelPci SpecRegs SpecConfig SpecHost SpecBar ProofsUtils ProofsMem ProofsRegs ProofsCaps ProofsCapFn ProofsConfig ProofsConfigLow ProofsConfigTop ProofsHost ProofsBar.

(** ** Accesses within a double word *)
Lemma kinds_of rd wr nb : In (rd, wr, nb) bar_kinds -> exists ms, In (rd, wr, ms) cfg_kinds.
Proof. intros [E | [E | []]]; injection E as <- <- <-; eexists; [right; left|right; right; left]; reflexivity. Qed.
Lemma write_one rd wr tg dev addr d f : at_id dev f -> d <> [] -> addr mod 4 + zlen d <= 4 -> bytes_ok d ->
  exists x be, config_write (cfg_deliver rd wr tg) dev addr d f = Ok (wr (addr / 4) x be (with_id dev f)) /\
    0 <= be < 16 /\ (forall j, 0 <= j -> Z.testbit be j = (addr mod 4 <=? j) && (j <? addr mod 4 + zlen d)) /\
    (forall i, 0 <= i -> addr mod 4 <= i / 8 < addr mod 4 + zlen d ->
       Z.testbit x i = Z.testbit (nth (Z.to_nat (i / 8 - addr mod 4)) d 0) (i mod 8)).
Proof.
  intros I N L B. destruct (deliver_write rd wr tg f dev addr d I N L B) as (c & x & be & Q & _ & B1 & B2 & X). rewrite (at_id_eq dev f I) in Q.
  exists x, be. split; [|auto]. unfold config_write. destruct d as [|y d]; [congruence|]. cbn [length config_write_loop].
  rewrite zlen_cons in *. pose proof (zlen_nonneg d) as P. replace (0 <? 1 + zlen d) with true by lia. rewrite Z.min_l by lia.
  replace (ModelRegion.slice 0 (1 + zlen d) (y :: d)) with (y :: d).
  2:{ unfold ModelRegion.slice. cbn [skipn Z.to_nat]. rewrite firstn_all2; [reflexivity|]. cbn [length]. unfold zlen. lia. }
  change (set_completer_id dev (set_requester_id id0 (set_fmt_type CFG_WRITE_1 tlp0))) with (cfg_req CFG_WRITE_1 dev). rewrite Q. cbn [bind].
  replace (skipn (Z.to_nat (1 + zlen d)) (y :: d)) with (@nil Z) by (symmetry; apply skipn_all2; cbn [length]; unfold zlen; lia).
  destruct (length d); reflexivity.
Qed.
Lemma write_dword rd wr tg dev r v f : at_id dev f -> 0 <= v < 2 ^ 32 ->
  exists x, cfg_write_dword (config_write (cfg_deliver rd wr tg) dev) (4 * r) v f = Ok (wr r x 15 (with_id dev f)) /\
    forall i, 0 <= i < 32 -> Z.testbit x i = Z.testbit v i.
Proof.
  intros I V. unfold cfg_write_dword, to_bytes. replace ((0 <=? v) && (v <? 256 ^ Z.of_nat 4)) with true by (change (256 ^ Z.of_nat 4) with 4294967296; lia).
  cbn [bind]. assert (M : (4 * r) mod 4 = 0) by lia. assert (D : 4 * r / 4 = r) by lia.
  destruct (write_one rd wr tg dev (4 * r) (le_bytes 4 v) f I) as (x & be & E & B1 & B2 & X).
  { discriminate. } { rewrite M. reflexivity. } { apply le_bytes_ok. }
  rewrite M, D in *. exists x. replace be with 15 in E.
  - split; [exact E|]. intros i Hi. rewrite X by (change (zlen (le_bytes 4 v)) with 4; lia). rewrite Z.sub_0_r, le_bytes_nth by lia.
    change 256 with (2 ^ 8). rewrite Z.mod_pow2_bits_low by lia. rewrite Z.div_pow2_bits by lia. f_equal. lia.
  - apply Z.bits_inj'. intros j Hj. rewrite B2 by lia. change (zlen (le_bytes 4 v)) with 4. destruct (Z.ltb_spec j 4).
    + assert (C : j = 0 \/ j = 1 \/ j = 2 \/ j = 3) by lia. destruct C as [-> | [-> | [-> | ->]]]; reflexivity.
    + rewrite (testbit_high 15 4) by lia. lia.
Qed.
Lemma from_le_bytes_nth l v : length l = 4%nat -> 0 <= v < 2 ^ 32 -> (forall k, 0 <= k < 4 -> nth (Z.to_nat k) l 0 = (v / 2 ^ (8 * k)) mod 256) ->
  from_le l = v.
Proof.
  intros L V H. destruct l as [|a [|b [|c [|d [|]]]]]; try discriminate L. pose proof (H 0 ltac:(lia)) as H0. pose proof (H 1 ltac:(lia)) as H1.
  pose proof (H 2 ltac:(lia)) as H2. pose proof (H 3 ltac:(lia)) as H3. change (a = (v / 1) mod 256) in H0. change (b = (v / 256) mod 256) in H1.
  change (c = (v / 65536) mod 256) in H2. change (d = (v / 16777216) mod 256) in H3. clear H L. cbn [from_le]. change (2 ^ 32) with 4294967296 in V. lia.
Qed.
Lemma read_dword rd wr ms tg crs dev r v f : In (rd, wr, ms) cfg_kinds -> at_id dev f -> rd f r = Ok (Some v) -> 0 <= v < 2 ^ 32 ->
  cfg_read_dword (config_read (cfg_deliver rd wr tg) crs dev) (4 * r) f = Ok (with_id dev f, v).
Proof.
  intros W I R V. unfold cfg_read_dword. destruct (host_read rd wr ms tg crs dev (4 * r) 4 f W ltac:(lia) I) as (d & -> & L & B).
  { intros q Hq. assert (q = r) by lia. subst q. exists v. auto. }
  cbn [bind Z.eqb]. do 2 f_equal. apply from_le_bytes_nth; [unfold zlen in L; lia|exact V|]. intros k Hk. specialize (B k Hk). unfold cfg_byte in B.
  replace ((4 * r + k) / 4) with r in B by lia. replace ((4 * r + k) mod 4) with k in B by lia. rewrite R in B. injection B as <-. reflexivity.
Qed.

(** ** One register *)
Definition reg32 (s : attrs) (i a : Z) : Prop := 0 <= a <= 32 /\ 0 <= s (fn_bar i) < 2 ^ 32 /\ s (fn_bar_mask i) = 2 ^ 32 - 2 ^ a.
Lemma wr_bar rd wr nb i x be f : In (rd, wr, nb) bar_kinds -> 0 <= i < nb ->
  wr (4 + i) x be f = with_attr (aset (fn_bar i) (byte_mask_update (f_attr f (fn_bar i)) be x (f_attr f (fn_bar_mask i)))) f.
Proof.
  intros [E | [E | []]] H; injection E as <- <- <-.
  - bars6 i H; reflexivity.
  - assert (C : i = 0 \/ i = 1) by lia. rewrite br_write_eq. destruct C as [-> | ->]; reflexivity.
Qed.
Lemma bmu_ext c x y m : 0 <= m < 2 ^ 32 -> (forall i, 0 <= i < 32 -> Z.testbit x i = Z.testbit y i) ->
  byte_mask_update c 15 x m = byte_mask_update c 15 y m.
Proof.
  intros Hm H. apply Z.bits_inj'. intros j Hj. rewrite !byte_mask_update_spec by lia. destruct (Z.ltb_spec j 32).
  - rewrite H by lia. reflexivity.
  - rewrite (testbit_high m 32) by (try exact Hm; exact H0). rewrite !andb_false_r. reflexivity.
Qed.
Lemma mask_range a : 0 <= a <= 32 -> 0 <= 2 ^ 32 - 2 ^ a < 2 ^ 32.
Proof. intros H. assert (2 ^ a <= 2 ^ 32) by (apply Z.pow_le_mono_r; lia). lia. Qed.
Lemma ones_mod a : 0 <= a <= 32 -> 2 ^ a * (0xffffffff / 2 ^ a) = 2 ^ 32 - 2 ^ a.
Proof.
  intros H. pose proof (Z.div_mod 0xffffffff (2 ^ a) ltac:(lia)) as E.
  assert (M : 0xffffffff mod 2 ^ a = 2 ^ a - 1); [|lia].
  change 0xffffffff with (2 ^ 32 - 1). rewrite (pow_split a 32) by lia. symmetry. apply (Z.mod_unique_pos _ _ (2 ^ (32 - a) - 1)); lia.
Qed.
Lemma probe_reg rd wr nb tg crs dev i j a b f : In (rd, wr, nb) bar_kinds -> 0 <= i < nb -> 0 <= j < nb -> at_id dev f ->
  reg32 (f_attr f) i a -> reg32 (f_attr f) j b ->
  let c := f_attr f (fn_bar i) in let o := f_attr f (fn_bar j) in
  exists f', probe (config_read (cfg_deliver rd wr tg) crs dev) (config_write (cfg_deliver rd wr tg) dev) (0x10 + j * 4) (0x10 + i * 4) 0xffffffff f
    = Ok (f', o, 2 ^ 32 - 2 ^ a + c mod 2 ^ a) /\ at_id dev f' /\
    f_attr f' (fn_bar i) = 2 ^ a * (o / 2 ^ a) + c mod 2 ^ a /\ forall x, x <> fn_bar i -> f_attr f' x = f_attr f x.
Proof.
  intros W Hi Hj I (A1 & A2 & A3) (_ & B2 & _) c o. destruct (kinds_of _ _ _ W) as [ms MS]. destruct (kind_bars _ _ _ W) as [Hnb K].
  pose proof (kinds_wr_id _ _ _ MS) as WI. unfold probe. replace (0x10 + j * 4) with (4 * (4 + j)) by lia. replace (0x10 + i * 4) with (4 * (4 + i)) by lia.
  destruct (K j f Hj) as [Kr _]. rewrite (read_dword _ _ _ tg crs dev _ _ _ MS I (Kr B2) B2). cbn [bind]. fold o.
  set (f0 := with_id dev f). assert (I0 : at_id dev f0) by (split; reflexivity).
  destruct (write_dword rd wr tg dev (4 + i) 0xffffffff f0 I0 ltac:(lia)) as (x & -> & X). cbn [bind].
  change (with_id dev f0) with f0. rewrite (wr_bar _ _ _ i x 15 f0 W Hi). change (f_attr f0) with (f_attr f). fold c. rewrite A3.
  rewrite (bmu_ext c x 0xffffffff) by (try exact X; apply mask_range; exact A1). rewrite bmu_all by assumption.
  rewrite Z.mod_small by lia. rewrite ones_mod by exact A1. set (v1 := 2 ^ 32 - 2 ^ a + c mod 2 ^ a).
  set (f1 := with_attr (aset (fn_bar i) v1) f0). assert (I1 : at_id dev f1) by (split; reflexivity).
  assert (V1 : 0 <= v1 < 2 ^ 32). { pose proof (Z.mod_pos_bound c (2 ^ a) ltac:(lia)). pose proof (mask_range a A1). unfold v1. lia. }
  assert (Ev : f_attr f1 (fn_bar i) = v1) by (unfold f1; cbn [with_attr f_attr]; apply aset_eq).
  destruct (K i f1 Hi) as [Kr1 _]. rewrite Ev in Kr1. rewrite (read_dword _ _ _ tg crs dev _ _ _ MS I1 (Kr1 V1) V1). cbn [bind].
  change (with_id dev f1) with f1. destruct (write_dword rd wr tg dev (4 + i) o f1 I1 B2) as (y & -> & Y). cbn [bind].
  change (with_id dev f1) with f1. rewrite (wr_bar _ _ _ i y 15 f1 W Hi). rewrite Ev.
  assert (Em : f_attr f1 (fn_bar_mask i) = 2 ^ 32 - 2 ^ a).
  { unfold f1. cbn [with_attr f_attr]. rewrite aset_ne by (apply not_eq_sym, bar_mask_ne; lia). exact A3. }
  rewrite Em, (bmu_ext v1 y o) by (try exact Y; apply mask_range; exact A1). rewrite bmu_all by assumption. rewrite (Z.mod_small o) by exact B2.
  assert (Vm : v1 mod 2 ^ a = c mod 2 ^ a).
  { unfold v1. rewrite <- ones_mod by exact A1. rewrite (Z.mul_comm (2 ^ a)), Z.add_comm, Z.mod_add by lia. apply Z.mod_mod. lia. }
  rewrite Vm. eexists. split; [reflexivity|]. split; [split; reflexivity|]. split; [apply aset_eq|].
  intros z Hz. cbn [with_attr f_attr]. rewrite aset_ne by exact Hz. unfold f1. cbn [with_attr f_attr]. apply aset_ne. exact Hz.
Qed.

(** ** Sizes *)
Lemma pat_bit w n t j : 0 <= n <= w -> 0 <= t < 2 ^ n -> 0 <= j ->
  Z.testbit (2 ^ w - 2 ^ n + t) j = if j <? n then Z.testbit t j else j <? w.
Proof.
  intros Hn Ht Hj. assert (E : 2 ^ w - 2 ^ n + t = t + Z.ones (w - n) * 2 ^ n) by (rewrite Z.ones_equiv, (pow_split n w) by lia; lia).
  rewrite E. destruct (Z.ltb_spec j n).
  - rewrite <- (Z.mod_pow2_bits_low (t + _) n) by lia. rewrite Z.mod_add, Z.mod_small by lia. reflexivity.
  - replace j with (j - n + n) by lia. rewrite <- Z.div_pow2_bits by lia. rewrite Z.div_add, Z.div_small by lia.
    rewrite Z.add_0_l, Z.testbit_ones_nonneg by lia. lia.
Qed.
Lemma size_read k n : size_ok k n ->
  Z.lor (Z.land (Z.lnot (content k (2 ^ bwidth k - 2 ^ n))) (2 ^ bwidth k - 1)) (2 ^ (if is_io k then 2 else 4) - 1) + 1 = 2 ^ n.
Proof.
  intros S. pose proof (type_small _ _ S) as T. destruct (size_n _ _ S) as [Hn _]. assert (Hw : n <= bwidth k) by (unfold size_ok in S; lia).
  assert (Hm : (if is_io k then 2 else 4) <= n) by (unfold size_ok in S; lia).
  enough (E : Z.lor (Z.land (Z.lnot (content k (2 ^ bwidth k - 2 ^ n))) (2 ^ bwidth k - 1)) (2 ^ (if is_io k then 2 else 4) - 1) = Z.ones n)
    by (rewrite E, Z.ones_equiv; lia).
  change (2 ^ bwidth k - 1) with (2 ^ bwidth k - 2 ^ 0). change (2 ^ (if is_io k then 2 else 4) - 1) with (2 ^ (if is_io k then 2 else 4) - 2 ^ 0).
  apply Z.bits_inj'. intros j Hj. unfold content. rewrite Z.lor_spec, Z.land_spec, Z.lnot_spec, pat_bit, !mask_bits, Z.testbit_ones_nonneg by (try destruct (is_io k); lia).
  destruct (Z.ltb_spec j n).
  - replace ((0 <=? j) && (j <? bwidth k)) with true by lia. rewrite andb_true_r.
    destruct (Z.ltb_spec j (if is_io k then 2 else 4)) as [L|L]; [rewrite orb_true_iff; right; lia|].
    replace (Z.testbit (type_bits k) j) with false; [reflexivity|]. symmetry. destruct k as [|[] []]; cbn [is_io type_bits] in *;
      first [apply (testbit_high _ 4); lia | apply (testbit_high _ 2); lia].
  - destruct (Z.ltb_spec j (bwidth k)); [|replace ((0 <=? j) && false) with false by lia]; cbn [negb andb orb]; destruct (is_io k); lia.
Qed.
Lemma pat_base k n : size_ok k n -> base_ok k n (2 ^ bwidth k - 2 ^ n).
Proof.
  intros S. destruct (size_n _ _ S) as [Hn _]. assert (Hw : n <= bwidth k) by (unfold size_ok in S; lia). split.
  - assert (2 ^ n <= 2 ^ bwidth k) by (apply Z.pow_le_mono_r; lia). lia.
  - rewrite (pow_split n (bwidth k)) by lia. replace (2 ^ n * 2 ^ (bwidth k - n) - 2 ^ n) with ((2 ^ (bwidth k - n) - 1) * 2 ^ n) by lia. apply Z.mod_mul. lia.
Qed.
Lemma low_bits v lo hi c : v = lo + 2 ^ 32 * hi -> 0 <= lo < 2 ^ 32 -> 0 <= c < 2 ^ 32 -> zbool (Z.land lo c) = zbool (Z.land v c).
Proof.
  intros -> H Hc. f_equal. apply Z.bits_inj'. intros j Hj. rewrite !Z.land_spec, testbit_halves by assumption.
  destruct (Z.ltb_spec j 32); [reflexivity|]. rewrite (testbit_high c 32) by (try exact Hc; assumption). rewrite !andb_false_r. reflexivity.
Qed.
(** The pattern read from the two halves of a wide BAR. *)
Lemma wide_pat n lo hi t : 4 <= n < 64 -> 0 <= lo < 2 ^ 32 -> 0 <= t < 16 -> (lo + 2 ^ 32 * hi) mod 2 ^ n = t ->
  (2 ^ 32 - 2 ^ Z.min n 32 + lo mod 2 ^ Z.min n 32) + 2 ^ 32 * (2 ^ 32 - 2 ^ Z.max (n - 32) 0 + hi mod 2 ^ Z.max (n - 32) 0) = 2 ^ 64 - 2 ^ n + t.
Proof.
  intros Hn Hl Ht E. destruct (Z.le_gt_cases n 32) as [L|L].
  - rewrite Z.min_l, Z.max_r by lia. change (2 ^ 0) with 1. rewrite Z.mod_1_r.
    replace (lo mod 2 ^ n) with t; [change (2 ^ 64) with (2 ^ 32 * 2 ^ 32); lia|]. rewrite <- E.
    rewrite (pow_split n 32) by lia. rewrite <- Z.mul_assoc, (Z.mul_comm (2 ^ n)), Z.mod_add by lia. reflexivity.
  - rewrite Z.min_r, Z.max_l by lia. rewrite (Z.mod_small lo) by exact Hl.
    assert (E2 : (lo + 2 ^ 32 * hi) mod 2 ^ n = lo + 2 ^ 32 * (hi mod 2 ^ (n - 32))).
    { rewrite (pow_split 32 n) by lia. symmetry. apply (Z.mod_unique_pos _ _ (hi / 2 ^ (n - 32))).
      - pose proof (Z.mod_pos_bound hi (2 ^ (n - 32)) ltac:(lia)). nia.
      - pose proof (Z.div_mod hi (2 ^ (n - 32)) ltac:(lia)). nia. }
    rewrite E2 in E. pose proof (Z.mod_pos_bound hi (2 ^ (n - 32)) ltac:(lia)) as B. set (q := hi mod 2 ^ (n - 32)) in *. clearbody q.
    rewrite (pow_split 32 n) by lia. change (2 ^ 64) with (2 ^ 32 * 2 ^ 32). clear E2 L. set (p := 2 ^ (n - 32)) in *. clearbody p.
    change (2 ^ 32) with 4294967296 in *. lia.
Qed.

(** ** All BARs *)
Lemma bar_frame s s' i k n base : (forall j, i <= j < i + slots k -> s' (fn_bar j) = s (fn_bar j) /\ s' (fn_bar_mask j) = s (fn_bar_mask j)) ->
  bar_at s i k n base -> bar_at s' i k n base.
Proof.
  unfold bar_at, slots. intros F (S & B & H). split; [exact S|]. split; [exact B|]. destruct (is_wide k).
  - destruct (F i ltac:(lia)) as [-> ->]. destruct (F (i + 1) ltac:(lia)) as [-> ->]. exact H.
  - destruct (F i ltac:(lia)) as [-> ->]. exact H.
Qed.
Lemma laid_frame s s' : forall l i, (forall j, i <= j < i + total_slots l -> s' (fn_bar j) = s (fn_bar j) /\ s' (fn_bar_mask j) = s (fn_bar_mask j)) ->
  laid_out s i l -> laid_out s' i l.
Proof.
  induction l as [|e l IH]; intros i F H; [exact Logic.I|]. pose proof (slots_nonneg l) as P. pose proof (entry_pos e) as Q.
  change (total_slots (e :: l)) with (entry_slots e + total_slots l) in F. destruct e as [[[k n] base]|]; cbn [laid_out entry_slots] in *.
  - destruct H as [B H]. split.
    + apply (bar_frame s); [|exact B]. intros j Hj. apply F. lia.
    + apply IH; [|exact H]. intros j Hj. apply F. lia.
  - destruct H as (A & B & H). destruct (F i ltac:(lia)) as [-> ->]. split; [exact A|]. split; [exact B|]. apply IH; [|exact H]. intros j Hj. apply F. lia.
Qed.
Definition reported (p : probed) (i : Z) (l : list entry) : Prop :=
  (forall j k n base, In (j, k, n, base) (windows i l) -> p_size p j = Some (2 ^ n) /\ (is_wide k = false -> p_raw p j = Some (content k base)) /\
     (is_wide k = true -> p_raw p j = Some (content k base mod 2 ^ 32 + 2 ^ 32 * (content k base mod 2 ^ 32)))) /\
  (forall j, In j (unused i l) -> p_size p j = Some 0 /\ p_raw p j = Some 0).
Lemma fset_eq {A} (k : Z) (v : A) m : fset k v m k = v.
Proof. unfold fset. rewrite Z.eqb_refl. reflexivity. Qed.
Lemma fset_ne {A} (k j : Z) (v : A) m : j <> k -> fset k v m j = m j.
Proof. intros. unfold fset. replace (j =? k) with false by lia. reflexivity. Qed.
Lemma unused_ge : forall l i j, In j (unused i l) -> i <= j.
Proof.
  induction l as [|[[[k n] base]|] l IH]; intros i j H; cbn [unused] in H; [destruct H| |].
  - apply IH in H. unfold slots in H. destruct (is_wide k); lia.
  - destruct H as [<-|H]; [lia|]. apply IH in H. lia.
Qed.
Lemma windows_ge : forall l i j k n base, In (j, k, n, base) (windows i l) -> i <= j.
Proof.
  induction l as [|[[[k0 n0] base0]|] l IH]; intros i j k n base H; cbn [windows] in H; [destruct H| |].
  - destruct H as [E|H]; [injection E as <-; lia|]. apply IH in H. unfold slots in H. destruct (is_wide k0); lia.
  - apply IH in H. lia.
Qed.
Lemma narrow_reg s i k n base : is_wide k = false -> bar_at s i k n base -> reg32 s i n /\ s (fn_bar i) = content k base.
Proof.
  intros Wd B. apply bar_narrow in B; [|exact Wd]. destruct B as (S & _ & C & R & M). destruct (size_n _ _ S) as [Hn Hn2]. specialize (Hn2 Wd).
  unfold reg32. split; [|congruence]. repeat split; lia || exact M.
Qed.
Ltac ilia := repeat match goal with x := _ |- _ => clearbody x end; repeat match goal with H : context [f_attr] |- _ => clear H end; repeat match goal with H : context [Z.pow] |- _ => clear H end; lia.
Lemma probe_loop rd wr nb tg crs dev : In (rd, wr, nb) bar_kinds -> forall l fuel bar p f,
  laid_out (f_attr f) bar l -> bar + total_slots l = nb -> 0 <= bar -> nb - bar <= Z.of_nat fuel -> at_id dev f ->
  exists f' p' l', read_bars_loop (config_read (cfg_deliver rd wr tg) crs dev) (config_write (cfg_deliver rd wr tg) dev) fuel nb bar p f = Ok (f', p') /\
    at_id dev f' /\ laid_out (f_attr f') bar l' /\ Forall2 same_entry l l' /\ reported p' bar l /\
    (forall j, j < bar -> p_size p' j = p_size p j /\ p_raw p' j = p_raw p j) /\ p_rom_raw p' = p_rom_raw p /\ p_rom_size p' = p_rom_size p /\
    forall x, (forall j, bar <= j < nb -> x <> fn_bar j) -> f_attr f' x = f_attr f x.
Proof.
  intros W. destruct (kind_bars _ _ _ W) as [Hnb _].
  assert (DONE : forall bar p f, laid_out (f_attr f) bar [] -> at_id dev f -> exists f' p' l', @Ok (fnc * probed) (f, p) = Ok (f', p') /\
    at_id dev f' /\ laid_out (f_attr f') bar l' /\ Forall2 same_entry [] l' /\ reported p' bar [] /\
    (forall j, j < bar -> p_size p' j = p_size p j /\ p_raw p' j = p_raw p j) /\ p_rom_raw p' = p_rom_raw p /\ p_rom_size p' = p_rom_size p /\
    forall x, (forall j, bar <= j < nb -> x <> fn_bar j) -> f_attr f' x = f_attr f x).
  { intros bar p f L I. exists f, p, []. split; [reflexivity|]. split; [exact I|]. split; [exact L|]. split; [constructor|].
    split; [split; intros; contradiction|]. auto. }
  induction l as [|e l IH]; intros fuel bar p f L T Hb Hf I.
  { change (total_slots []) with 0 in T. destruct fuel as [|fuel]; cbn [read_bars_loop]; [|replace (bar <? nb) with false by lia]; apply DONE; assumption. }
  pose proof (slots_nonneg l) as P. pose proof (entry_pos e) as Q. change (bar + (entry_slots e + total_slots l) = nb) in T.
  destruct fuel as [|fuel]; [exfalso; lia|]. cbn [read_bars_loop]. replace (bar <? nb) with true by lia. clear DONE.
  destruct e as [[[k n] base]|]; cbn [entry_slots laid_out windows unused] in *.
  - destruct L as [B L]. pose proof B as (S & Bo & _). pose proof (content_mod _ _ _ S Bo) as CM. pose proof (size_n _ _ S) as [Hn Hn2]. unfold slots in *.
    destruct (is_wide k) eqn:Wd.
    + pose proof (is_wide_io k Wd) as Io. pose proof B as B0. apply bar_wide in B; [|exact Wd]. destruct B as (_ & _ & C & R1 & R2 & M1 & M2).
      assert (X1 : reg32 (f_attr f) bar (Z.min n 32)) by (split; [clear - Hn; lia|split; assumption]).
      destruct (probe_reg rd wr nb tg crs dev bar bar (Z.min n 32) (Z.min n 32) f W ltac:(ilia) ltac:(ilia) I X1 X1) as (f1 & -> & I1 & V1 & F1).
      cbn [bind]. set (lo := f_attr f (fn_bar bar)) in *. set (hi := f_attr f (fn_bar (bar + 1))) in *.
      rewrite <- Z.div_mod in V1 by lia. assert (n4 : 4 <= n) by (unfold size_ok in S; rewrite Io in S; lia).
      assert (Ty : 0 <= type_bits k < 16) by (destruct k as [|[] []]; cbn; lia).
      rewrite C in CM. pose proof (wide_pat n lo hi (type_bits k) ltac:(clear - n4 Hn; lia) R1 Ty CM) as WP.
      set (vl := 2 ^ 32 - 2 ^ Z.min n 32 + lo mod 2 ^ Z.min n 32) in *. set (vh := 2 ^ 32 - 2 ^ Z.max (n - 32) 0 + hi mod 2 ^ Z.max (n - 32) 0) in *.
      assert (Rl : 0 <= vl < 2 ^ 32). { unfold vl. clear - Hn. pose proof (mask_range (Z.min n 32) ltac:(lia)). pose proof (Z.mod_pos_bound lo (2 ^ Z.min n 32) ltac:(lia)). lia. }
      replace (2 ^ 64 - 2 ^ n + type_bits k) with (content k (2 ^ bwidth k - 2 ^ n)) in WP by (unfold content, bwidth; rewrite Wd; reflexivity). symmetry in WP.
      destruct (content_low k n _ S (pat_base k n S)) as [CL1 CL2]. specialize (CL2 Io). rewrite Io in CL1. rewrite Wd in CL2.
      pose proof (low_bits _ vl vh 1 WP Rl ltac:(ilia)) as LB1. pose proof (low_bits _ vl vh 4 WP Rl ltac:(ilia)) as LB4.
      rewrite CL1 in LB1. rewrite CL2 in LB4. destruct (Z.eqb_spec vl 0) as [Ez|_]; [rewrite Ez in LB4; discriminate LB4|].
      rewrite LB1, LB4. replace (nb - 1 <=? bar) with false by ilia.
      assert (Ehi : f_attr f1 (fn_bar (bar + 1)) = hi) by (apply F1; apply bar_ne; ilia).
      assert (X1' : reg32 (f_attr f1) bar (Z.min n 32)).
      { split; [clear - Hn; lia|]. rewrite V1. split; [exact R1|]. rewrite F1 by (apply not_eq_sym, bar_mask_ne; ilia). exact M1. }
      assert (X2 : reg32 (f_attr f1) (bar + 1) (Z.max (n - 32) 0)).
      { split; [clear - Hn; lia|]. rewrite Ehi. split; [exact R2|]. rewrite F1 by (apply not_eq_sym, bar_mask_ne; ilia). exact M2. }
      destruct (probe_reg rd wr nb tg crs dev (bar + 1) bar _ _ f1 W ltac:(ilia) ltac:(ilia) I1 X2 X1') as (f2 & -> & I2 & V2 & F2). cbn [bind].
      rewrite Ehi in *. rewrite V1 in *. fold vh. set (hi' := 2 ^ Z.max (n - 32) 0 * (lo / 2 ^ Z.max (n - 32) 0) + hi mod 2 ^ Z.max (n - 32) 0) in *.
      match goal with |- context [read_bars_loop _ _ fuel nb (bar + 2) ?q f2] => set (p1 := q) end.
      destruct (IH fuel (bar + 2) p1 f2) as (f' & p' & l' & E & I' & L' & SE & RP & FP & RR & RS & FR); [|ilia|ilia|ilia|exact I2|].
      { apply (laid_frame (f_attr f)); [|exact L]. intros j Hj. rewrite !F2, !F1 by (first [apply bar_ne; ilia | apply not_eq_sym, bar_mask_ne; ilia]). split; reflexivity. }
      assert (Rh : 0 <= hi' < 2 ^ 32).
      { clear - Hn R1. pose proof (Z.div_mod lo (2 ^ Z.max (n - 32) 0) ltac:(lia)). pose proof (Z.mod_pos_bound hi (2 ^ Z.max (n - 32) 0) ltac:(lia)) as U.
        pose proof (Z.mod_pos_bound lo (2 ^ Z.max (n - 32) 0) ltac:(lia)) as V. unfold hi'. rewrite (pow_split (Z.max (n - 32) 0) 32) in * by lia.
        pose proof (Z.div_pos lo (2 ^ Z.max (n - 32) 0) ltac:(lia) ltac:(lia)). assert (lo / 2 ^ Z.max (n - 32) 0 < 2 ^ (32 - Z.max (n - 32) 0)) by (apply Z.div_lt_upper_bound; lia).
        nia. }
      set (v := lo + 2 ^ 32 * hi'). assert (Vm : v mod 2 ^ n = type_bits k).
      { rewrite <- CM. apply mod_halves; [clear - Hn; lia|exact R1|exact R1|reflexivity|]. unfold hi'. rewrite Z.add_comm, Z.mul_comm, Z.mod_add by (clear - Hn; lia). apply Z.mod_mod. clear - Hn; lia. }
      assert (Rv : 0 <= v < 2 ^ bwidth k). { unfold bwidth. rewrite Wd. unfold v. clear - R1 Rh. change (2 ^ 64) with 18446744073709551616. change (2 ^ 32) with 4294967296 in *. lia. }
      destruct (content_of k n v S Rv Vm) as [Bo' Co'].
      exists f', p', (Some (k, n, v - v mod 2 ^ n) :: l'). split; [exact E|]. split; [exact I'|]. cbn [laid_out windows unused]. unfold slots. rewrite Wd.
      assert (Elo : f_attr f' (fn_bar bar) = lo). { rewrite FR by (intros j Hj; apply bar_ne; ilia). rewrite F2 by (apply bar_ne; ilia). exact V1. }
      assert (Eh : f_attr f' (fn_bar (bar + 1)) = hi'). { rewrite FR by (intros j Hj; apply bar_ne; ilia). exact V2. }
      assert (EM : forall i, 0 <= i < 6 -> f_attr f' (fn_bar_mask i) = f_attr f (fn_bar_mask i)).
      { intros i Hi. rewrite FR by (intros j Hj; apply not_eq_sym, bar_mask_ne; ilia). rewrite F2, F1 by (apply not_eq_sym, bar_mask_ne; ilia). reflexivity. }
      split; [split; [|exact L']|]. { apply bar_wide; [exact Wd|]. rewrite Elo, Eh, !EM, Co' by ilia. fold v. auto 8. }
      split; [constructor; [repeat split; congruence|exact SE]|]. split; [|].
      { split.
        - intros j k' n' base' [G|G].
          + injection G as <- <- <- <-. destruct (FP bar ltac:(ilia)) as [-> ->]. unfold p1. cbn [set_bar p_size p_raw]. rewrite !fset_eq.
            split; [|split; [congruence|intros _; f_equal; rewrite shiftl_halves by exact R1; rewrite C, (proj1 (halves_of lo hi R1)); reflexivity]]. f_equal.
            rewrite shiftl_halves by exact Rl. rewrite <- WP. pose proof (size_read k n S) as SR. unfold bwidth in SR. rewrite Wd, Io in SR. unfold bwidth. rewrite Wd. exact SR.
          + cbn [windows] in G. unfold slots in G. rewrite Wd in G. apply RP in G. exact G.
        - intros j G. cbn [unused] in G. unfold slots in G. rewrite Wd in G. apply RP. exact G. }
      split; [|split; [exact RR|split; [exact RS|]]].
      * intros j Hj. destruct (FP j ltac:(ilia)) as [-> ->]. unfold p1. cbn [set_bar p_size p_raw]. rewrite !fset_ne by ilia. auto.
      * intros x Hx. rewrite FR by (intros; apply Hx; ilia). rewrite F2, F1 by (apply Hx; ilia). reflexivity.
    + specialize (Hn2 eq_refl). destruct (narrow_reg _ _ _ _ _ Wd B) as [X Ec].
      destruct (probe_reg rd wr nb tg crs dev bar bar n n f W ltac:(lia) ltac:(lia) I X X) as (f1 & -> & I1 & V1 & F1). cbn [bind].
      rewrite <- Z.div_mod in V1 by lia. rewrite Ec, CM in *.
      replace (2 ^ 32 - 2 ^ n + type_bits k) with (content k (2 ^ bwidth k - 2 ^ n)) by (unfold content, bwidth; rewrite Wd; reflexivity).
      destruct (content_low k n _ S (pat_base k n S)) as [CL1 CL2].
      replace (content k (2 ^ bwidth k - 2 ^ n) =? 0) with false.
      2:{ symmetry. apply Z.eqb_neq. unfold content, bwidth. rewrite Wd. pose proof (type_small _ _ S). assert (2 ^ n < 2 ^ 32) by (apply Z.pow_lt_mono_r; lia). lia. }
      rewrite CL1. pose proof (size_read k n S) as SR.
      assert (F1' : forall x, f_attr f1 x = f_attr f x).
      { intros x. destruct (Pos.eq_dec x (fn_bar bar)) as [->|N]; [congruence|]. apply F1. exact N. }
      assert (GO : exists f' p' l', read_bars_loop (config_read (cfg_deliver rd wr tg) crs dev) (config_write (cfg_deliver rd wr tg) dev) fuel nb (bar + 1)
          (set_bar bar (content k base) (2 ^ n) p) f1 = Ok (f', p') /\
        at_id dev f' /\ laid_out (f_attr f') bar l' /\ Forall2 same_entry (Some (k, n, base) :: l) l' /\ reported p' bar (Some (k, n, base) :: l) /\
        (forall j, j < bar -> p_size p' j = p_size p j /\ p_raw p' j = p_raw p j) /\ p_rom_raw p' = p_rom_raw p /\ p_rom_size p' = p_rom_size p /\
        forall x, (forall j, bar <= j < nb -> x <> fn_bar j) -> f_attr f' x = f_attr f x).
      { destruct (IH fuel (bar + 1) (set_bar bar (content k base) (2 ^ n) p) f1) as (f' & p' & l' & E & I' & L' & SE & RP & FP & RR & RS & FR); [|lia|lia|lia|exact I1|].
        { apply (laid_frame (f_attr f)); [|exact L]. intros j Hj. rewrite !F1'. split; reflexivity. }
        exists f', p', (Some (k, n, base) :: l'). split; [exact E|]. split; [exact I'|]. cbn [laid_out]. unfold slots. rewrite Wd.
        split; [split; [|exact L']|].
        { apply (bar_frame (f_attr f)); [|exact B]. unfold slots. rewrite Wd. intros j Hj. rewrite !FR, !F1' by (intros; first [apply bar_ne; lia | apply not_eq_sym, bar_mask_ne; lia]). auto. }
        split; [constructor; [repeat split; congruence|exact SE]|]. split; [|].
        { split.
          - intros j k' n' base' [G|G].
            + injection G as <- <- <- <-. destruct (FP bar ltac:(lia)) as [-> ->]. cbn [set_bar p_size p_raw]. rewrite !fset_eq. split; [reflexivity|]. split; [reflexivity|congruence].
            + unfold slots in G. rewrite Wd in G. apply RP in G. exact G.
          - intros j G. cbn [unused] in G. unfold slots in G. rewrite Wd in G. apply RP. exact G. }
        split; [|split; [exact RR|split; [exact RS|]]].
        - intros j Hj. destruct (FP j ltac:(lia)) as [-> ->]. cbn [set_bar p_size p_raw]. rewrite !fset_ne by lia. auto.
        - intros x Hx. rewrite FR by (intros; apply Hx; lia). apply F1'. }
      unfold bwidth in SR. rewrite Wd in SR. destruct (is_io k) eqn:Io.
      * unfold bwidth. rewrite Wd. change 0xffffffff with (2 ^ 32 - 1). change 3 with (2 ^ 2 - 1). rewrite SR. exact GO.
      * specialize (CL2 eq_refl). rewrite CL2, Wd. unfold bwidth. rewrite Wd. change 0xffffffff with (2 ^ 32 - 1). change 0xf with (2 ^ 4 - 1). rewrite SR. exact GO.
  - destruct L as (A & M & L). assert (X : reg32 (f_attr f) bar 32) by (split; [lia|]; rewrite A, M; split; [lia|reflexivity]).
    destruct (probe_reg rd wr nb tg crs dev bar bar 32 32 f W ltac:(lia) ltac:(lia) I X X) as (f1 & -> & I1 & V1 & F1). cbn [bind].
    rewrite A in *. cbn [Z.eqb Z.sub Z.modulo Z.add]. change (2 ^ 32 - 2 ^ 32 + 0 mod 2 ^ 32 =? 0) with true. cbn match.
    assert (F1' : forall x, f_attr f1 x = f_attr f x).
    { intros x. destruct (Pos.eq_dec x (fn_bar bar)) as [->|N]; [rewrite V1, A; reflexivity|]. apply F1. exact N. }
    destruct (IH fuel (bar + 1) (set_bar bar 0 0 p) f1) as (f' & p' & l' & E & I' & L' & SE & RP & FP & RR & RS & FR); [|lia|lia|lia|exact I1|].
    { apply (laid_frame (f_attr f)); [|exact L]. intros j Hj. rewrite !F1'. split; reflexivity. }
    exists f', p', (None :: l'). split; [exact E|]. split; [exact I'|]. cbn [laid_out].
    rewrite !FR, !F1' by (intros; first [apply bar_ne; lia | apply not_eq_sym, bar_mask_ne; lia]).
    split; [auto|]. split; [constructor; [exact Logic.I|exact SE]|]. split.
    { split.
      - intros j k' n' base' G. cbn [windows] in G. apply RP in G. exact G.
      - intros j G. cbn [unused] in G. destruct G as [<-|G]; [|apply RP; exact G]. destruct (FP bar ltac:(lia)) as [-> ->]. cbn [set_bar p_size p_raw]. rewrite !fset_eq. auto. }
    split; [|split; [exact RR|split; [exact RS|]]].
    + intros j Hj. destruct (FP j ltac:(lia)) as [-> ->]. cbn [set_bar p_size p_raw]. rewrite !fset_ne by lia. auto.
    + intros x Hx. rewrite FR by (intros; apply Hx; lia). apply F1'.
Qed.

(** ** The ROM and the command register *)
Lemma land_rom v : 0 <= v < 2 ^ 32 -> v mod 2 ^ 11 = 0 -> Z.land v 0xfffff800 = v.
Proof.
  intros V M. change 0xfffff800 with (2 ^ 32 - 2 ^ 11). apply Z.bits_inj'. intros j Hj. rewrite Z.land_spec, mask_bits by lia.
  destruct (Z.ltb_spec j 11); [|destruct (Z.ltb_spec j 32)].
  - replace (Z.testbit v j) with false; [reflexivity|]. rewrite <- (Z.mod_pow2_bits_low v 11) by lia. rewrite M, Z.bits_0. reflexivity.
  - replace (11 <=? j) with true by lia. apply andb_true_r.
  - rewrite (testbit_high v 32) by assumption. reflexivity.
Qed.
Lemma lor_enable (e : bool) v : 0 <= v < 2 ^ 32 -> v mod 2 ^ 11 = 0 -> Z.lor (Z.b2z e) v = v + Z.b2z e.
Proof.
  intros V M. rewrite Z.lor_comm, Z.add_nocarry_lxor, Z.lxor_lor; [reflexivity| |];
    (apply Z.bits_inj'; intros j Hj; rewrite Z.land_spec, Z.bits_0; destruct (Z.ltb_spec j 11);
     [rewrite <- (Z.mod_pow2_bits_low v 11), M, Z.bits_0 by lia; reflexivity | rewrite (testbit_high (Z.b2z e) 11) by (destruct e; cbn; lia); apply andb_false_r]).
Qed.
Lemma rom_read rd wr nb f a base : In (rd, wr, nb) bar_kinds -> rom_at (f_attr f) a base ->
  rd f (rom_of nb / 4) = Ok (Some (base + Z.b2z (zbool (f_attr f fn_expansion_rom_enable)))).
Proof.
  intros W (A & R & M & E & _).
  enough (X : rd f (rom_of nb / 4) = Ok (Some (Z.lor (Z.b2z (zbool (f_attr f fn_expansion_rom_enable))) (Z.land (f_attr f fn_expansion_rom_addr) 0xfffff800)))).
  - rewrite X, E, land_rom, lor_enable by assumption. reflexivity.
  - destruct W as [W | [W | []]]; injection W as <- <- <-; reflexivity.
Qed.
Lemma rom_write rd wr nb f x : In (rd, wr, nb) bar_kinds ->
  wr (rom_of nb / 4) x 15 f = with_attr (fun s => aset fn_expansion_rom_enable (Z.b2z (bit x 0))
    (aset fn_expansion_rom_addr (Z.land (byte_mask_update (s fn_expansion_rom_addr) 15 x (s fn_expansion_rom_addr_mask)) 0xfffff800) s)) f.
Proof. intros [W | [W | []]]; injection W as <- <- <-; [reflexivity|]. rewrite br_write_eq. reflexivity. Qed.
Lemma rom_value a base v : 11 <= a <= 32 -> 0 <= base < 2 ^ 32 -> base mod 2 ^ 11 = 0 -> 0 <= v < 2 ^ 32 -> v mod 2 ^ 11 = 0 ->
  forall e : bool, Z.land (byte_mask_update base 15 (v + Z.b2z e) (2 ^ 32 - 2 ^ a)) 0xfffff800 = 2 ^ a * (v / 2 ^ a) + base mod 2 ^ a.
Proof.
  intros Ha R M V Mv e. assert (Ve : 0 <= v + Z.b2z e < 2 ^ 32).
  { pose proof (Z.div_mod v (2 ^ 11) ltac:(lia)) as E. rewrite Mv in E. change (2 ^ 32) with 4294967296 in *. change (2 ^ 11) with 2048 in *. destruct e; cbn; lia. }
  rewrite bmu_all by lia. rewrite Z.mod_small by exact Ve.
  assert (D : (v + Z.b2z e) / 2 ^ a = v / 2 ^ a).
  { rewrite <- lor_enable by assumption. apply div_bits; [lia|]. intros j Hj. rewrite Z.lor_spec. rewrite (testbit_high (Z.b2z e) 11) by (destruct e; cbn; lia). reflexivity. }
  rewrite D. apply land_rom.
  - pose proof (Z.div_mod v (2 ^ a) ltac:(lia)). pose proof (Z.mod_pos_bound base (2 ^ a) ltac:(lia)). pose proof (Z.mod_pos_bound v (2 ^ a) ltac:(lia)).
    rewrite (pow_split a 32) in * by lia. pose proof (Z.div_pos v (2 ^ a) ltac:(lia) ltac:(lia)).
    assert (v / 2 ^ a < 2 ^ (32 - a)) by (apply Z.div_lt_upper_bound; lia). clear - H H0 H1 H2 H3. nia.
  - rewrite (pow_split 11 a) at 1 by lia. rewrite <- Z.mul_assoc, Z.add_comm, (Z.mul_comm (2 ^ 11)), Z.mod_add by lia. rewrite mod_mod_pow by lia. exact M.
Qed.
Lemma probe_rom rd wr nb tg crs dev f a base : In (rd, wr, nb) bar_kinds -> at_id dev f -> rom_at (f_attr f) a base ->
  let e := zbool (f_attr f fn_expansion_rom_enable) in
  exists f', probe (config_read (cfg_deliver rd wr tg) crs dev) (config_write (cfg_deliver rd wr tg) dev) (rom_of nb) (rom_of nb) 0xfffff800 f
    = Ok (f', base + Z.b2z e, 2 ^ 32 - 2 ^ a + base mod 2 ^ a) /\ at_id dev f' /\
    rom_at (f_attr f') a base /\ f_attr f' fn_expansion_rom_enable = Z.b2z e /\
    forall x, x <> fn_expansion_rom_addr -> x <> fn_expansion_rom_enable -> f_attr f' x = f_attr f x.
Proof.
  intros W I A e. destruct (kinds_of _ _ _ W) as [ms MS]. pose proof A as (A1 & A2 & A3 & A4 & A5).
  assert (RO : rom_of nb = 4 * (rom_of nb / 4)) by (destruct W as [W | [W | []]]; injection W as _ _ <-; reflexivity).
  unfold probe. set (r := rom_of nb / 4) in *. rewrite RO. pose proof (rom_read _ _ _ f a base W A) as R0. fold r e in R0.
  assert (Vo : 0 <= base + Z.b2z e < 2 ^ 32).
  { pose proof (Z.div_mod base (2 ^ 11) ltac:(lia)) as E. rewrite A3 in E. change (2 ^ 32) with 4294967296 in *. change (2 ^ 11) with 2048 in *. destruct e; cbn; lia. }
  rewrite (read_dword _ _ _ tg crs dev _ _ _ MS I R0 Vo). cbn [bind]. set (f0 := with_id dev f). assert (I0 : at_id dev f0) by (split; reflexivity).
  destruct (write_dword rd wr tg dev r 0xfffff800 f0 I0 ltac:(lia)) as (x & -> & X). cbn [bind]. change (with_id dev f0) with f0.
  pose proof (rom_write _ _ _ f0 x W) as RWx. fold r in RWx. rewrite RWx. rewrite bit_testbit, X by lia. change (Z.b2z (Z.testbit 0xfffff800 0)) with 0.
  set (f1 := with_attr _ f0). assert (I1 : at_id dev f1) by (split; reflexivity).
  assert (P0 : f_attr f0 = f_attr f) by reflexivity.
  set (v1 := 2 ^ 32 - 2 ^ a + base mod 2 ^ a).
  assert (E1 : f_attr f1 fn_expansion_rom_addr = v1).
  { unfold f1. cbn [with_attr f_attr]. rewrite aset_ne by (cbv; discriminate). rewrite aset_eq, P0, A4, A5.
    rewrite (bmu_ext base x 0xfffff800) by (try exact X; apply mask_range; lia).
    change 0xfffff800 with (0xfffff800 + Z.b2z false) at 1. rewrite (rom_value a base 0xfffff800) by (reflexivity || assumption || lia).
    unfold v1. f_equal. rewrite <- (ones_mod a) by lia. f_equal. apply div_bits; [lia|]. intros j Hj.
    change 0xfffff800 with (2 ^ 32 - 2 ^ 11). change 0xffffffff with (2 ^ 32 - 2 ^ 0). rewrite !mask_bits by lia. lia. }
  assert (E2 : f_attr f1 fn_expansion_rom_enable = 0) by (unfold f1; cbn [with_attr f_attr]; apply aset_eq).
  assert (E3 : f_attr f1 fn_expansion_rom_addr_mask = 2 ^ 32 - 2 ^ a).
  { unfold f1. cbn [with_attr f_attr]. rewrite !aset_ne by (cbv; discriminate). exact A5. }
  assert (B1 : 0 <= v1 < 2 ^ 32). { pose proof (mask_range a ltac:(lia)). pose proof (Z.mod_pos_bound base (2 ^ a) ltac:(lia)). unfold v1. lia. }
  assert (M1 : v1 mod 2 ^ 11 = 0).
  { unfold v1. rewrite (pow_split 11 a), (pow_split 11 32) at 1 by lia. rewrite <- Z.mul_sub_distr_l, Z.add_comm, Z.mul_comm, Z.mod_add by lia.
    rewrite mod_mod_pow by lia. exact A3. }
  assert (RA1 : rom_at (f_attr f1) a v1) by (unfold rom_at; auto).
  pose proof (rom_read _ _ _ f1 a v1 W RA1) as R1. fold r in R1. rewrite E2 in R1. cbn [zbool Z.eqb negb Z.b2z] in R1. rewrite Z.add_0_r in R1.
  rewrite (read_dword _ _ _ tg crs dev _ _ _ MS I1 R1 B1). cbn [bind]. change (with_id dev f1) with f1.
  destruct (write_dword rd wr tg dev r (base + Z.b2z e) f1 I1 Vo) as (y & -> & Y). cbn [bind]. change (with_id dev f1) with f1.
  pose proof (rom_write _ _ _ f1 y W) as RWy. fold r in RWy. rewrite RWy. rewrite bit_testbit, Y by lia.
  assert (T : Z.testbit (base + Z.b2z e) 0 = e).
  { rewrite <- lor_enable, Z.lor_spec by assumption. rewrite <- (Z.mod_pow2_bits_low base 11), A3, Z.bits_0, orb_false_r by lia. apply Z.b2z_bit0. }
  rewrite T. eexists. split; [reflexivity|]. split; [split; reflexivity|]. cbn [with_attr f_attr]. split.
  - unfold rom_at. split; [exact A1|]. split; [exact A2|]. split; [exact A3|]. split; [|rewrite !aset_ne by (cbv; discriminate); exact E3].
    rewrite aset_ne by (cbv; discriminate). rewrite aset_eq, E1, E3. rewrite (bmu_ext v1 y (base + Z.b2z e)) by (try exact Y; apply mask_range; lia).
    rewrite (rom_value a v1 base) by assumption.
    assert (Vm : v1 mod 2 ^ a = base mod 2 ^ a).
    { unfold v1. rewrite <- ones_mod by lia. rewrite (Z.mul_comm (2 ^ a)), Z.add_comm, Z.mod_add by lia. apply Z.mod_mod. lia. }
    rewrite Vm. symmetry. apply Z.div_mod. lia.
  - split; [apply aset_eq|]. intros z Z1 Z2. rewrite !aset_ne by assumption. unfold f1. cbn [with_attr f_attr]. rewrite !aset_ne by assumption. reflexivity.
Qed.
Lemma command_keeps rd wr nb x be f : In (rd, wr, nb) bar_kinds ->
  f_attr (wr 1 x be f) fn_expansion_rom_addr = f_attr f fn_expansion_rom_addr /\
  f_attr (wr 1 x be f) fn_expansion_rom_enable = f_attr f fn_expansion_rom_enable /\
  f_attr (wr 1 x be f) fn_expansion_rom_addr_mask = f_attr f fn_expansion_rom_addr_mask.
Proof.
  intros W. replace (wr 1 x be f) with (fn_write 1 x be f) by (destruct W as [W | [W | []]]; injection W as <- <- <-; [reflexivity|rewrite br_write_eq; reflexivity]).
  unfold fn_write. cbn [Z.eqb Pos.eqb with_attr f_attr]. repeat split; keep_attr.
Qed.
Lemma command_read rd wr nb f : In (rd, wr, nb) bar_kinds -> readable rd f 1.
Proof.
  intros W. destruct (fn_shows f 1 ltac:(lia)) as (v & E & V & _). exists v. split; [|exact V].
  destruct W as [W | [W | []]]; injection W as <- <- <-; exact E.
Qed.
Lemma from_le2 d : zlen d = 2 -> bytes_ok d -> 0 <= from_le d < 65536.
Proof.
  intros L B. destruct d as [|a [|b [|]]]; try (unfold zlen in L; cbn [length] in L; lia).
  inversion B as [|? ? B1 B2]; subst. inversion B2 as [|? ? B3 B4]; subst. cbn [from_le]. unfold byte_ok in *. lia.
Qed.
Lemma probe_all rd wr nb tg crs dev p f l a rb : In (rd, wr, nb) bar_kinds -> at_id dev f ->
  laid_out (f_attr f) 0 l -> total_slots l = nb -> rom_at (f_attr f) a rb ->
  exists f' p' l', read_bars (config_read (cfg_deliver rd wr tg) crs dev) (config_write (cfg_deliver rd wr tg) dev) nb (rom_of nb) p f = Ok (f', p') /\
    laid_out (f_attr f') 0 l' /\ Forall2 same_entry l l' /\ reported p' 0 l /\ rom_at (f_attr f') a rb /\
    zbool (f_attr f' fn_expansion_rom_enable) = zbool (f_attr f fn_expansion_rom_enable) /\
    p_rom_size p' = (if 2 ^ 32 - 2 ^ a + rb mod 2 ^ a =? 0 then 0 else Z.lor (Z.land (Z.lnot (2 ^ 32 - 2 ^ a + rb mod 2 ^ a)) 0xffffffff) 0x7ff + 1).
Proof.
  intros W I L T R. destruct (kinds_of _ _ _ W) as [ms MS]. destruct (kind_bars _ _ _ W) as [Hnb K]. pose proof (kinds_wr_id _ _ _ MS) as WI.
  unfold read_bars, cfg_read_word. destruct (host_read rd wr ms tg crs dev 4 2 f MS ltac:(lia) I) as (d & -> & Ld & Bd).
  { intros r Hr. assert (r = 1) by lia. subst r. apply (command_read _ _ _ _ W). }
  cbn [bind Z.eqb]. assert (BD : bytes_ok d).
  { apply Forall_forall. intros y Hy. apply (In_nth _ _ 0) in Hy. destruct Hy as (n & Hn & <-). specialize (Bd (Z.of_nat n) ltac:(unfold zlen in Ld; lia)).
    unfold cfg_byte in Bd. destruct (rd f _) as [[v|]|]; [|discriminate|discriminate]. injection Bd as Bd. rewrite Nat2Z.id in Bd. rewrite <- Bd. apply Z.mod_pos_bound. lia. }
  pose proof (from_le2 d Ld BD) as Hc. set (c := from_le d) in *. set (f0 := with_id dev f).
  assert (S1 : exists f1, (if negb (Z.land c (Z.lnot 3) =? c) then cfg_write_word (config_write (cfg_deliver rd wr tg) dev) 4 (Z.land c (Z.lnot 3)) f0 else Ok f0) = Ok f1 /\
    at_id dev f1 /\ laid_out (f_attr f1) 0 l /\ rom_at (f_attr f1) a rb /\ f_attr f1 fn_expansion_rom_enable = f_attr f fn_expansion_rom_enable).
  { destruct (Z.land c (Z.lnot 3) =? c); cbn [negb].
    - exists f0. split; [reflexivity|]. split; [split; reflexivity|]. auto.
    - unfold cfg_write_word, to_bytes. assert (C2 : 0 <= Z.land c (Z.lnot 3) < 2 ^ 16) by (apply bits_range; [lia|]; intros j Hj; rewrite Z.land_spec, (testbit_high c 16) by assumption; reflexivity).
      replace ((0 <=? Z.land c (Z.lnot 3)) && (Z.land c (Z.lnot 3) <? 256 ^ Z.of_nat 2)) with true by (change (256 ^ Z.of_nat 2) with (2 ^ 16); lia). cbn [bind].
      destruct (write_one rd wr tg dev 4 (le_bytes 2 (Z.land c (Z.lnot 3))) f0) as (x & be & -> & _); [split; reflexivity|discriminate|cbn; lia|apply le_bytes_ok|].
      change (4 / 4) with 1. change (with_id dev f0) with f0. exists (wr 1 x be f0). split; [reflexivity|].
      split; [unfold at_id; rewrite WI; split; reflexivity|]. destruct (command_keeps _ _ _ x be f0 W) as (R1 & R2 & R3). split; [|split].
      + apply (laid_frame (f_attr f)); [|exact L]. rewrite T. intros j Hj. destruct (K j f0 ltac:(lia)) as [_ Kj]. destruct (Kj 1 x be) as [-> ->].
        replace (1 =? 4 + j) with false by lia. split; reflexivity.
      + unfold rom_at in *. rewrite R1, R3. exact R.
      + exact R2. }
  destruct S1 as (f1 & -> & I1 & L1 & R1 & E1). cbn [bind].
  destruct (probe_loop rd wr nb tg crs dev W l (Z.to_nat nb) 0 p f1 L1 ltac:(lia) ltac:(lia) ltac:(lia) I1) as (f2 & p2 & l' & -> & I2 & L2 & SE & RP & _ & RR & RS & FR).
  cbn [bind]. assert (RZ : zbool (rom_of nb) = true) by (destruct W as [W | [W | []]]; injection W as _ _ <-; reflexivity). rewrite RZ.
  assert (NB : forall x, In x [fn_expansion_rom_addr; fn_expansion_rom_addr_mask; fn_expansion_rom_enable] -> f_attr f2 x = f_attr f1 x).
  { intros x Hx. apply FR. intros j Hj. unfold fn_bar. repeat (destruct Hx as [<-|Hx]; [cbv [fn_expansion_rom_addr fn_expansion_rom_addr_mask fn_expansion_rom_enable]; lia|]). destruct Hx. }
  assert (R2 : rom_at (f_attr f2) a rb) by (unfold rom_at in *; rewrite !NB by (cbn; tauto); exact R1).
  destruct (probe_rom rd wr nb tg crs dev f2 a rb W I2 R2) as (f3 & -> & I3 & R3 & E3 & F3). cbn [bind].
  exists f3. eexists. exists l'. split; [reflexivity|]. split; [|split; [exact SE|split; [|split; [exact R3|split]]]].
  - apply (laid_frame (f_attr f2)); [|exact L2]. intros j Hj.
    assert (TS : total_slots l' = total_slots l).
    { clear - SE. induction SE as [|e e' l l' H _ IH]; [reflexivity|]. change (entry_slots e' + total_slots l' = entry_slots e + total_slots l). rewrite IH. f_equal.
      destruct e as [[[k n] b]|], e' as [[[k' n'] b']|]; try contradiction; [|reflexivity]. destruct H as (-> & _). reflexivity. }
    rewrite !F3 by (unfold fn_bar, fn_bar_mask; cbv [fn_expansion_rom_addr fn_expansion_rom_enable]; lia). split; reflexivity.
  - destruct RP as [RP1 RP2]. destruct (zbool (2 ^ 32 - _ + _)); split; assumption.
  - rewrite E3. rewrite NB, E1 by (cbn; tauto). destruct (zbool (f_attr f fn_expansion_rom_enable)); reflexivity.
  - unfold zbool. destruct (_ =? 0); reflexivity.
Qed.
Lemma rom_size a base : 11 <= a <= 32 -> 0 <= base < 2 ^ 32 -> base mod 2 ^ a = 0 ->
  (if 2 ^ 32 - 2 ^ a + base mod 2 ^ a =? 0 then 0 else Z.lor (Z.land (Z.lnot (2 ^ 32 - 2 ^ a + base mod 2 ^ a)) 0xffffffff) 0x7ff + 1) = if a =? 32 then 0 else 2 ^ a.
Proof.
  intros A B M. rewrite M, Z.add_0_r. destruct (Z.eqb_spec a 32) as [->|N]; [reflexivity|].
  assert (2 ^ a < 2 ^ 32) by (apply Z.pow_lt_mono_r; lia). destruct (Z.eqb_spec (2 ^ 32 - 2 ^ a) 0); [lia|].
  enough (E : Z.lor (Z.land (Z.lnot (2 ^ 32 - 2 ^ a)) 0xffffffff) 0x7ff = Z.ones a) by (rewrite E, Z.ones_equiv; lia).
  change 0xffffffff with (2 ^ 32 - 2 ^ 0). change 0x7ff with (2 ^ 11 - 2 ^ 0). apply Z.bits_inj'. intros j Hj.
  rewrite Z.lor_spec, Z.land_spec, Z.lnot_spec, !mask_bits, Z.testbit_ones_nonneg by lia. lia.
Qed.
