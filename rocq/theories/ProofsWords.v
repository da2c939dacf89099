From Verif Require Import Base BaseProofs ModelUtils ModelRegion ModelWords SpecWords.

Lemma nth_le_bytes n : forall v j, 0 <= j < Z.of_nat n -> nth (Z.to_nat j) (le_bytes n v) 0 = byte_of v j.
Proof.
  unfold byte_of. induction n as [|n IH]; intros v j H; [lia|]. cbn [le_bytes]. destruct (Z.eq_dec j 0) as [->|E].
  - cbn [Z.to_nat nth]. rewrite Z.pow_0_r, Z.div_1_r. reflexivity.
  - replace (Z.to_nat j) with (S (Z.to_nat (j - 1))) by lia. cbn [nth]. rewrite IH by lia.
    rewrite Z.div_div by (try lia; apply Z.pow_pos_nonneg; lia).
    replace (256 * 256 ^ (j - 1)) with (256 ^ j); [reflexivity|]. rewrite <- Z.pow_succ_r by lia. f_equal; lia.
Qed.
Lemma word_bytes_ok o ws w : fits ws w -> exists d, word_bytes o ws w = Ok d /\ length d = ws /\ bytes_ok d /\ word_val o d = w /\
  forall j, 0 <= j < Z.of_nat ws -> nth (Z.to_nat (place o (Z.of_nat ws) 0 j)) d 0 = byte_of w j.
Proof.
  intros H. unfold word_bytes. replace ((0 <=? w) && (w <? 256 ^ Z.of_nat ws)) with true by (unfold fits in H; symmetry; apply andb_true_intro; lia).
  eexists. split; [reflexivity|]. destruct o; cbn [word_val].
  - split; [apply le_bytes_length|]. split; [apply le_bytes_ok|]. split; [apply from_le_le_bytes; exact H|].
    intros j Hj. unfold place. replace (Z.of_nat ws * 0 + j) with j by lia. apply nth_le_bytes; exact Hj.
  - split; [unfold be_bytes; rewrite rev_length; apply le_bytes_length|]. split; [unfold be_bytes, bytes_ok; apply Forall_rev, le_bytes_ok|].
    split; [unfold from_be, be_bytes; rewrite rev_involutive; apply from_le_le_bytes; exact H|].
    intros j Hj. unfold place, be_bytes. rewrite rev_nth; rewrite le_bytes_length; [|lia].
    replace (ws - _)%nat with (Z.to_nat j) by lia. apply nth_le_bytes; exact Hj.
Qed.
Lemma zlen_app' (a b : list Z) : zlen (a ++ b) = zlen a + zlen b. Proof. unfold zlen. rewrite app_length. lia. Qed.

Lemma words_data_ok o ws words : Forall (fits ws) words -> forall acc, exists d, words_data o ws words acc = Ok (acc ++ d) /\ bytes_ok d /\ layout o ws words d.
Proof.
  induction 1 as [|w l Hw Hl IH]; intros acc.
  - exists []. cbn. rewrite app_nil_r. split; [reflexivity|]. split; [constructor|]. split; [cbn; lia|constructor|cbn; intros; lia].
  - destruct (word_bytes_ok o ws w Hw) as (b & Eb & Lb & Bb & _ & Pb). cbn [words_data]. rewrite Eb. cbn [bind].
    destruct (IH (acc ++ b)) as (d & Ed & Bd & [Ld Fd Pd]). exists (b ++ d). rewrite Ed, <- app_assoc. split; [reflexivity|].
    split; [apply Forall_app; split; assumption|]. split.
    + rewrite zlen_app', Ld. unfold zlen. cbn [length]. lia.
    + constructor; assumption.
    + intros i j Hi Hj. unfold zlen in Hi. cbn [length] in Hi. unfold place. destruct (Z.eq_dec i 0) as [->|E].
      * rewrite app_nth1 by (rewrite Lb; destruct o; nia). apply Pb; exact Hj.
      * replace (Z.to_nat i) with (S (Z.to_nat (i - 1))) by lia. cbn [nth]. rewrite <- Pd by (unfold zlen; lia).
        rewrite app_nth2 by (rewrite Lb; destruct o; nia). f_equal. rewrite Lb. unfold place. destruct o; nia.
Qed.
Lemma words_data_bad o ws words : ~ Forall (fits ws) words -> forall acc, words_data o ws words acc = Err OverflowError.
Proof.
  induction words as [|w l IH]; intros H acc; [destruct (H (Forall_nil _))|]. cbn [words_data].
  destruct ((0 <=? w) && (w <? 256 ^ Z.of_nat ws)) eqn:E.
  - unfold word_bytes. rewrite E. cbn [bind]. apply IH. intros F. apply H. constructor; [|exact F]. unfold fits. apply andb_prop in E. lia.
  - unfold word_bytes. rewrite E. reflexivity.
Qed.

Lemma byte_of_inj n : forall v w, 0 <= v < 256 ^ Z.of_nat n -> 0 <= w < 256 ^ Z.of_nat n ->
  (forall j, 0 <= j < Z.of_nat n -> byte_of v j = byte_of w j) -> v = w.
Proof.
  intros v w Hv Hw H. rewrite <- (from_le_le_bytes n v Hv), <- (from_le_le_bytes n w Hw). f_equal.
  apply (nth_ext _ _ 0 0); [rewrite !le_bytes_length; reflexivity|]. rewrite le_bytes_length. intros k Hk.
  replace k with (Z.to_nat (Z.of_nat k)) by lia. rewrite !nth_le_bytes by lia. apply H. lia.
Qed.
Lemma from_le_bound' d : bytes_ok d -> 0 <= from_le d < 256 ^ zlen d.
Proof.
  induction 1 as [|b l Hb Hl IH]; [cbn; lia|]. cbn [from_le]. unfold zlen in *. cbn [length].
  rewrite Nat2Z.inj_succ, Z.pow_succ_r by lia. unfold byte_ok in Hb. nia.
Qed.
Lemma word_val_ok o d : bytes_ok d -> fits (length d) (word_val o d) /\
  forall j, 0 <= j < zlen d -> byte_of (word_val o d) j = nth (Z.to_nat (place o (zlen d) 0 j)) d 0.
Proof.
  intros H. assert (K : forall l, bytes_ok l -> fits (length l) (from_le l) /\ forall j, 0 <= j < zlen l -> byte_of (from_le l) j = nth (Z.to_nat j) l 0).
  { intros l B. split; [exact (from_le_bound' l B)|]. intros j Hj. rewrite <- (nth_le_bytes (length l)) by exact Hj.
    rewrite le_bytes_from_le by exact B. reflexivity. }
  destruct o; cbn [word_val].
  - destruct (K d H) as (F & P). split; [exact F|]. intros j Hj. rewrite P by exact Hj. f_equal. unfold place. lia.
  - unfold from_be. destruct (K (rev d)) as (F & P); [apply Forall_rev; exact H|]. rewrite rev_length in F. split; [exact F|].
    intros j Hj. rewrite P by (unfold zlen in *; rewrite rev_length; exact Hj). unfold zlen in *. rewrite rev_nth by lia. f_equal. unfold place. lia.
Qed.
Lemma nth_slice (d : list Z) a b k : 0 <= a -> 0 <= k < b - a -> nth (Z.to_nat k) (slice a b d) 0 = nth (Z.to_nat (a + k)) d 0.
Proof.
  intros Ha Hk. unfold slice. assert (N : forall (l : list Z) m i, (i < m)%nat -> nth i (firstn m l) 0 = nth i l 0).
  { clear. induction l as [|x l IH]; intros m i H; destruct m, i; cbn; try lia; try reflexivity. apply IH. lia. }
  rewrite N by lia. assert (M : forall (l : list Z) m i, nth i (skipn m l) 0 = nth (m + i) l 0).
  { clear. induction l as [|x l IH]; intros m i; destruct m; cbn; try reflexivity; [destruct i; reflexivity|apply IH]. }
  rewrite M. f_equal. lia.
Qed.
Lemma slice_length' (d : list Z) a b : 0 <= a <= b -> b <= zlen d -> zlen (slice a b d) = b - a.
Proof. intros H K. unfold slice, zlen in *. rewrite firstn_length, skipn_length. lia. Qed.
Lemma bytes_slice (d : list Z) a b : bytes_ok d -> bytes_ok (slice a b d).
Proof.
  intros H. unfold slice, bytes_ok in *. assert (F : forall m (l : list Z), Forall byte_ok l -> Forall byte_ok (firstn m l)).
  { clear. induction m; intros l H; [constructor|]. destruct H; cbn; [constructor|constructor; auto]. }
  apply F. clear F. set (m := Z.to_nat a). clearbody m. revert m. induction H; intros [|m]; cbn; try constructor; auto.
Qed.
Lemma data_words_ok o ws n d : 0 <= n -> bytes_ok d -> zlen d = n * Z.of_nat ws -> layout o ws (data_words o ws n d) d /\ zlen (data_words o ws n d) = n.
Proof.
  intros Hn Bd Ld. set (f := fun k => word_val o (slice (Z.of_nat ws * Z.of_nat k) (Z.of_nat ws * (Z.of_nat k + 1)) d)).
  assert (L : zlen (data_words o ws n d) = n) by (unfold data_words, zlen; rewrite map_length, seq_length; lia).
  split; [|exact L].
  assert (P : forall k, (k < Z.to_nat n)%nat -> fits ws (f k) /\ forall j, 0 <= j < Z.of_nat ws ->
    byte_of (f k) j = nth (Z.to_nat (place o (Z.of_nat ws) (Z.of_nat k) j)) d 0).
  { intros k Hk. unfold f. set (e := slice _ _ d). assert (Le : zlen e = Z.of_nat ws) by (unfold e; rewrite slice_length'; nia).
    destruct (word_val_ok o e (bytes_slice _ _ _ Bd)) as (F & Q).
    replace (length e) with ws in F by (unfold zlen in Le; lia). split; [exact F|].
    intros j Hj. rewrite Q by lia. rewrite Le. unfold e. rewrite nth_slice by (unfold place; destruct o; nia).
    f_equal. unfold place. destruct o; nia. }
  assert (N : forall k, (k < Z.to_nat n)%nat -> nth k (data_words o ws n d) 0 = f k).
  { intros k Hk. unfold data_words. fold f. rewrite (nth_indep _ 0 (f 0%nat)) by (rewrite map_length, seq_length; lia).
    rewrite map_nth, seq_nth by lia. reflexivity. }
  split.
  - rewrite L. lia.
  - apply Forall_forall. intros w Hw. destruct (In_nth _ _ 0 Hw) as (k & Hk & <-). unfold zlen in L. rewrite N by lia. apply P. lia.
  - rewrite L. intros i j Hi Hj. rewrite N by lia. destruct (P (Z.to_nat i)) as (_ & Q); [lia|]. rewrite Q by exact Hj. do 3 f_equal. lia.
Qed.
(** The layout determines the words. *)
Lemma layout_inj o ws u v d : layout o ws u d -> layout o ws v d -> zlen u = zlen v -> u = v.
Proof.
  intros [_ Fu Pu] [_ Fv Pv] E. apply (nth_ext _ _ 0 0); [unfold zlen in E; lia|]. intros k Hk.
  rewrite Forall_forall in Fu, Fv. unfold zlen in *.
  apply (byte_of_inj ws); [apply Fu, nth_In; lia|apply Fv, nth_In; lia|]. intros j Hj.
  specialize (Pu (Z.of_nat k) j ltac:(lia) Hj). specialize (Pv (Z.of_nat k) j ltac:(lia) Hj).
  rewrite Nat2Z.id in Pu, Pv. congruence.
Qed.

Section W.
Context {S : Type} (rd : Z -> Z -> S -> res (S * list Z)) (wr : Z -> list Z -> S -> res S).
Lemma write_words_ok addr words o ws s :
  (Forall (fits ws) words -> exists d, layout o ws words d /\ bytes_ok d /\ write_words wr addr words o ws s = wr addr d s) /\
  (~ Forall (fits ws) words -> write_words wr addr words o ws s = Err OverflowError).
Proof.
  unfold write_words. split; intros H.
  - destruct (words_data_ok o ws words H []) as (d & E & B & L). exists d. rewrite E. cbn. auto.
  - rewrite (words_data_bad o ws words H). reflexivity.
Qed.
Lemma read_words_ok addr n o ws s s' d : 0 <= n -> rd addr (n * Z.of_nat ws) s = Ok (s', d) -> bytes_ok d -> zlen d = n * Z.of_nat ws ->
  exists words, read_words rd addr n o ws s = Ok (s', words) /\ zlen words = n /\ layout o ws words d.
Proof.
  intros Hn E B L. unfold read_words. rewrite E. cbn [bind]. destruct (data_words_ok o ws n d Hn B L) as (K & M). eauto.
Qed.
Lemma read_words_err addr n o ws s e : rd addr (n * Z.of_nat ws) s = Err e -> read_words rd addr n o ws s = Err e.
Proof. intros H. unfold read_words. rewrite H. reflexivity. Qed.

Lemma words_trip view ok addr words o ws s :
  stores rd wr view ok addr (zlen words * Z.of_nat ws) -> ok s -> Forall (fits ws) words ->
  exists s', write_words wr addr words o ws s = Ok s' /\ ok s' /\
    (exists s2, read_words rd addr (zlen words) o ws s' = Ok (s2, words) /\ ok s2 /\ forall x, view s2 x = view s' x) /\
    (forall i j, 0 <= i < zlen words -> 0 <= j < Z.of_nat ws ->
      view s' (addr + place o (Z.of_nat ws) i j) = byte_of (nth (Z.to_nat i) words 0) j) /\
    (forall x, x < addr \/ addr + zlen words * Z.of_nat ws <= x -> view s' x = view s x).
Proof.
  intros [SR SW] Hs F. destruct (proj1 (write_words_ok addr words o ws s) F) as (d & Ly & B & E).
  pose proof Ly as [L _ P]. destruct (SW s d Hs) as (s' & Ew & Hs' & V); [lia|]. exists s'. rewrite E. split; [exact Ew|].
  split; [exact Hs'|]. split; [|split].
  - destruct (SR s' Hs') as (s2 & d2 & Er & L2 & Vs2 & Hs2 & D2).
    assert (D : d2 = d).
    { apply (nth_ext _ _ 0 0); [unfold zlen in *; nia|]. intros k Hk. specialize (D2 (Z.of_nat k)).
      rewrite Nat2Z.id in D2. rewrite D2 by (unfold zlen in *; lia). rewrite V.
      replace ((addr <=? addr + Z.of_nat k) && _) with true by (symmetry; apply andb_true_intro; unfold zlen in *; lia).
      f_equal. lia. }
    subst d2. exists s2. split; [|split; assumption].
    destruct (read_words_ok addr (zlen words) o ws s' s2 d) as (w2 & E2 & Lw & Ly2); [unfold zlen; lia|exact Er|exact B|exact L2|].
    rewrite E2. do 2 f_equal. exact (layout_inj o ws w2 words d Ly2 Ly Lw).
  - intros i j Hi Hj. rewrite V. assert (0 <= place o (Z.of_nat ws) i j < zlen words * Z.of_nat ws) by (unfold place; destruct o; nia).
    replace ((addr <=? _) && _) with true by (symmetry; apply andb_true_intro; lia). rewrite <- (P i j Hi Hj). do 2 f_equal. lia.
  - intros x Hx. rewrite V. replace ((addr <=? x) && _) with false; [reflexivity|]. symmetry. apply andb_false_iff. lia.
Qed.
Lemma word_trip view ok addr v o ws s : (0 < ws)%nat ->
  stores rd wr view ok addr (Z.of_nat ws) -> ok s -> fits ws v ->
  exists s' s2, write_word wr addr v o ws s = Ok s' /\ read_word rd addr o ws s' = Ok (s2, v) /\
    forall j, 0 <= j < Z.of_nat ws -> view s' (addr + match o with Little => j | Big => Z.of_nat ws - 1 - j end) = byte_of v j.
Proof.
  intros Hw St Hs F. destruct (words_trip view ok addr [v] o ws s) as (s' & E & _ & (s2 & E2 & _) & P & _).
  - replace (zlen [v] * Z.of_nat ws) with (Z.of_nat ws) by (unfold zlen; cbn [length]; lia). exact St.
  - exact Hs.
  - constructor; [exact F|constructor].
  - exists s', s2. split; [exact E|]. split.
    + unfold read_word. change (zlen [v]) with 1 in E2. rewrite E2. reflexivity.
    + intros j Hj. specialize (P 0 j ltac:(unfold zlen; cbn [length]; lia) Hj). cbn [nth Z.to_nat] in P. rewrite <- P. f_equal. unfold place. destruct o; lia.
Qed.
Lemma byte_trip view ok addr v s : stores rd wr view ok addr 1 -> ok s ->
  exists s' s2, write_byte wr addr v s = Ok s' /\ read_byte rd addr s' = Ok (s2, v) /\ view s' addr = v.
Proof.
  intros [SR SW] Hs. destruct (SW s [v] Hs eq_refl) as (s' & E & Hs' & V). destruct (SR s' Hs') as (s2 & d & Er & L & _ & _ & D).
  exists s', s2. split; [exact E|]. assert (view s' addr = v).
  { rewrite V. replace ((addr <=? addr) && _) with true by (symmetry; apply andb_true_intro; lia). rewrite Z.sub_diag. reflexivity. }
  split; [|assumption]. unfold read_byte. rewrite Er. cbn [bind]. destruct d as [|b [|]]; cbn in L; try (unfold zlen in L; cbn in L; lia).
  specialize (D 0 ltac:(lia)). rewrite Z.add_0_r in D. cbn in D. unfold first_of. cbn. congruence.
Qed.
Lemma cap_words off addr n words o ws s :
  read_words (cap_read rd off) addr n o ws s = (match off with Some x => if zbool x then read_words rd (addr + x) n o ws s else Err PyException | None => Err PyException end) /\
  (Forall (fits ws) words -> write_words (cap_write wr off) addr words o ws s =
    match off with Some x => if zbool x then write_words wr (addr + x) words o ws s else Err PyException | None => Err PyException end).
Proof.
  split.
  - unfold read_words, cap_read. destruct off as [x|]; [destruct (zbool x)|]; reflexivity.
  - intros F. unfold write_words, cap_write. destruct (words_data_ok o ws words F []) as (d & E & _). rewrite E. cbn [bind].
    destruct off as [x|]; [destruct (zbool x)|]; reflexivity.
Qed.
End W.
