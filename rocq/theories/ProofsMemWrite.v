(** Byte enable masked writes and end to end writes. *)
From Verif Require Import Base BaseProofs Bits ModelUtils ProofsUtils ModelTlp SpecTlp ProofsTlp ProofsTlpCodec ProofsTlpBe
  ModelRegion ModelCompleter SpecMem ProofsMem ProofsMemE2e.

(** * The scan for runs of enabled bytes *)
Definition in_runs (runs : list (Z * Z)) (i : Z) : bool := existsb (fun '(s, e) => (s <=? i) && (i <? e)) runs.
Lemma in_runs_app a b i : in_runs (a ++ b) i = in_runs a i || in_runs b i.
Proof. apply existsb_app. Qed.
(** [P] is what has been scanned so far: [offset] lanes. *)
Record scanned (P : Z -> bool) (s : scan_state) : Prop := {
  sc_pos : 0 <= fst (fst s);
  sc_runs : Forall (fun '(a, b) => 0 <= a < b /\ b <= fst (fst s)) (snd s);
  sc_start : match snd (fst s) with Some st => 0 <= st < fst (fst s) | None => True end;
  sc_in : forall i, in_runs (snd s) i || match snd (fst s) with Some st => (st <=? i) && (i <? fst (fst s)) | None => false end
          = (0 <=? i) && (i <? fst (fst s)) && P i }.
Lemma zbool_bit m k : 0 <= k -> zbool (Z.land m (Z.shiftl 1 k)) = Z.testbit m k.
Proof.
  intros H. unfold zbool. rewrite Z.shiftl_1_l. destruct (Z.testbit m k) eqn:E.
  - assert (Z.land m (2 ^ k) <> 0); [|destruct (Z.eqb_spec (Z.land m (2 ^ k)) 0); [contradiction|reflexivity]].
    intros H0. assert (T : Z.testbit (Z.land m (2 ^ k)) k = true) by (rewrite Z.land_spec, E, Z.pow2_bits_true by lia; reflexivity).
    rewrite H0, Z.bits_0 in T. discriminate.
  - assert (Z.land m (2 ^ k) = 0) as ->; [|reflexivity]. apply Z.bits_inj'. intros i Hi.
    rewrite Z.land_spec, Z.bits_0, Z.pow2_bits_eqb by lia. destruct (Z.eqb_spec k i) as [<-|]; [rewrite E; reflexivity|apply andb_false_r].
Qed.
Lemma scan_lane_ok P mask k s : 0 <= k -> P (fst (fst s)) = Z.testbit mask k -> scanned P s -> scanned P (scan_lane mask k s) /\
  fst (fst (scan_lane mask k s)) = fst (fst s) + 1.
Proof.
  intros Hk E [S1 S2 S3 S4]. destruct s as [[o st] runs]. cbn [fst snd] in *. unfold scan_lane. rewrite zbool_bit by exact Hk.
  rewrite <- E. destruct (P o) eqn:Po; (split; [|reflexivity]).
  - split; cbn [fst snd].
    + lia.
    + revert S2. apply Forall_impl. intros [a b]. lia.
    + destruct st; lia.
    + intros i. specialize (S4 i). destruct st as [st|].
      * destruct (Z.eq_dec i o) as [->|N].
        -- rewrite Po. replace (0 <=? o) with true by lia. replace (o <? o + 1) with true by lia. replace (st <=? o) with true by lia.
           apply orb_true_r.
        -- replace (i <? o + 1) with (i <? o) by lia. exact S4.
      * rewrite orb_false_r in S4. rewrite S4. destruct (Z.eq_dec i o) as [->|N].
        -- rewrite Po. lia.
        -- destruct (P i); lia.
  - split; cbn [fst snd].
    + lia.
    + assert (G : Forall (fun '(a, b) => 0 <= a < b /\ b <= o + 1) runs) by (revert S2; apply Forall_impl; intros [a b]; lia).
      destruct st as [st|]; [|exact G]. destruct (negb (o =? st)); [|exact G]. apply Forall_app. split; [exact G|]. constructor; [lia|constructor].
    + exact I.
    + intros i. specialize (S4 i). rewrite orb_false_r. destruct st as [st|].
      * replace (negb (o =? st)) with true by lia. rewrite in_runs_app. cbn [in_runs existsb]. rewrite orb_false_r. unfold in_runs in *. rewrite S4.
        destruct (Z.eq_dec i o) as [->|N]; [rewrite Po; lia|]. f_equal. lia.
      * rewrite orb_false_r in S4. rewrite S4. destruct (Z.eq_dec i o) as [->|N]; [rewrite Po; lia|]. f_equal. lia.
Qed.
Lemma scan_dword_ok P mask s : (forall k, 0 <= k < 4 -> P (fst (fst s) + k) = Z.testbit mask k) -> scanned P s ->
  scanned P (scan_dword mask s) /\ fst (fst (scan_dword mask s)) = fst (fst s) + 4.
Proof.
  intros E S. unfold scan_dword. cbn [fold_left].
  destruct (scan_lane_ok P mask 0 s ltac:(lia)) as [S0 O0]; [rewrite <- (E 0) by lia; f_equal; lia|exact S|].
  destruct (scan_lane_ok P mask 1 _ ltac:(lia) ltac:(rewrite O0; apply E; lia) S0) as [S1 O1].
  destruct (scan_lane_ok P mask 2 _ ltac:(lia) ltac:(rewrite O1, O0, <- (E 2) by lia; f_equal; lia) S1) as [S2 O2].
  destruct (scan_lane_ok P mask 3 _ ltac:(lia) ltac:(rewrite O2, O1, O0, <- (E 3) by lia; f_equal; lia) S2) as [S3 O3].
  split; [exact S3|lia].
Qed.
Lemma scan_flush_ok P s : scanned P s ->
  Forall (fun '(a, b) => 0 <= a < b /\ b <= fst (fst s)) (scan_flush s) /\
  forall i, in_runs (scan_flush s) i = (0 <=? i) && (i <? fst (fst s)) && P i.
Proof.
  intros [S1 S2 S3 S4]. destruct s as [[o st] runs]. cbn [fst snd] in *. unfold scan_flush. destruct st as [st|].
  - replace (negb (o =? st)) with true by lia. split.
    + apply Forall_app. split; [exact S2|]. constructor; [lia|constructor].
    + intros i. rewrite <- S4, in_runs_app. cbn [in_runs existsb]. rewrite orb_false_r. reflexivity.
  - split; [exact S2|]. intros i. rewrite <- S4. symmetry. apply orb_false_r.
Qed.
Lemma scanned_init P : scanned P (0, None, []).
Proof. split; cbn; try lia; try constructor; intros i; destruct (P i); lia. Qed.

Lemma write_runs_ok t : 1 <= tlen t ->
  Forall (fun '(a, b) => 0 <= a < b /\ b <= 4 * tlen t) (write_runs t) /\
  forall i, in_runs (write_runs t) i = byte_enabled t i.
Proof.
  intros L. set (P := fun i => lane_enabled (tlen t) (first_be t) (last_be t) (i / 4) (i mod 4)).
  unfold write_runs. cbv zeta.
  destruct (scan_dword_ok P (first_be t) (0, None, [])) as [S0 O0]; [|apply scanned_init|].
  { intros k Hk. cbn [fst]. unfold P, lane_enabled. replace ((0 + k) / 4) with 0 by lia. replace ((0 + k) mod 4) with k by lia. reflexivity. }
  set (s0 := scan_dword (first_be t) (0, None, [])) in *. clearbody s0. cbn [fst] in O0.
  match goal with |- context [if tlen t >? 2 then ?a else s0] => set (s1 := if tlen t >? 2 then a else s0) end.
  assert (S1 : scanned P s1 /\ (1 < tlen t -> fst (fst s1) = 4 * (tlen t - 1)) /\ (tlen t = 1 -> fst (fst s1) = 4)).
  { unfold s1. destruct (Z.gtb_spec (tlen t) 2) as [G|G]; [|split; [exact S0|lia]].
    destruct S0 as [A1 A2 A3 A4]. destruct s0 as [[o st] runs]. cbn [fst snd] in *. split; [|lia].
    split; cbn [fst snd].
    - lia.
    - revert A2. apply Forall_impl. intros [a b]. lia.
    - destruct st; lia.
    - intros i. specialize (A4 i).
      assert (MID : o <= i < o + (tlen t - 2) * 4 -> P i = true).
      { intros H. unfold P, lane_enabled. replace (i / 4 =? 0) with false by lia. replace (i / 4 =? tlen t - 1) with false by lia. reflexivity. }
      destruct (Z.leb_spec o i) as [Hi|Hi]; [destruct (Z.ltb_spec i (o + (tlen t - 2) * 4)) as [Hj|Hj]|].
      + rewrite MID by lia. replace (0 <=? i) with true by lia. cbn [andb].
        destruct st as [st|]; [replace (st <=? i) with true by lia|replace (o <=? i) with true by lia]; apply orb_true_r.
      + rewrite andb_false_r. cbn [andb]. destruct st as [st|].
        * replace (i <? o) with false in A4 by lia. rewrite !andb_false_r in A4. cbn [andb] in A4. rewrite andb_false_r. exact A4.
        * replace (i <? o) with false in A4 by lia. rewrite !andb_false_r in A4. cbn [andb] in A4. rewrite andb_false_r. exact A4.
      + replace (i <? o + (tlen t - 2) * 4) with true by lia. replace (i <? o) with true in A4 by lia. destruct st as [st|]; [exact A4|].
        replace (o <=? i) with false by lia. exact A4. }
  destruct S1 as (S1 & O1 & O1'). clearbody s1. clear S0 O0 s0.
  match goal with |- context [if tlen t >? 1 then ?a else s1] => set (s2 := if tlen t >? 1 then a else s1) end.
  assert (S2 : scanned P s2 /\ fst (fst s2) = 4 * tlen t).
  { unfold s2. destruct (Z.gtb_spec (tlen t) 1) as [G|G]; [|split; [exact S1|lia]].
    destruct (scan_dword_ok P (last_be t) s1) as [S2 O2]; [|exact S1|split; [exact S2|lia]].
    intros k Hk. rewrite O1 by lia. unfold P, lane_enabled. replace ((_ + k) / 4) with (tlen t - 1) by lia.
    replace ((_ + k) mod 4) with k by lia. replace (tlen t - 1 =? 0) with false by lia. rewrite Z.eqb_refl. reflexivity. }
  destruct S2 as [S2 O2]. destruct (scan_flush_ok P s2 S2) as [F1 F2]. rewrite O2 in F1, F2. split; [exact F1|exact F2].
Qed.
Lemma io_runs_write t : tlen t = 1 -> io_runs t = write_runs t.
Proof. intros E. unfold io_runs, write_runs. rewrite E. reflexivity. Qed.

(** * Writing runs *)
Definition runs_mem (m : mem) (addr : Z) (d : list Z) (runs : list (Z * Z)) : mem :=
  fun x => if in_runs runs (x - addr) then nth (Z.to_nat (x - addr)) d 0 else m x.
Lemma write_mem_run m addr d s e runs : 0 <= s < e -> e <= zlen d ->
  forall x, runs_mem (write_mem m (addr + s) (slice s e d)) addr d runs x = runs_mem m addr d ((s, e) :: runs) x.
Proof.
  intros H1 H2 x. unfold runs_mem. cbn [in_runs existsb]. fold (in_runs runs (x - addr)).
  destruct (in_runs runs (x - addr)); [rewrite orb_true_r; reflexivity|rewrite orb_false_r].
  unfold write_mem. rewrite zlen_slice by lia.
  replace ((addr + s <=? x) && (x <? addr + s + (e - s))) with ((s <=? x - addr) && (x - addr <? e)) by lia.
  destruct ((s <=? x - addr) && (x - addr <? e)) eqn:E; [|reflexivity].
  rewrite nth_slice by lia. do 2 f_equal. lia.
Qed.
Lemma runs_mem_ext m m' addr d runs : (forall x, m x = m' x) -> forall x, runs_mem m addr d runs x = runs_mem m' addr d runs x.
Proof. intros H x. unfold runs_mem. destruct (in_runs _ _); auto. Qed.

Lemma region_writes_ok addr d : forall runs r, 
  Forall (fun '(a, b) => 0 <= a < b /\ b <= zlen d) runs -> addr + zlen d <= rg_size r ->
  exists r', region_writes r addr d runs = Ok r' /\ rg_size r' = rg_size r /\ forall x, rg_mem r' x = runs_mem (rg_mem r) addr d runs x.
Proof.
  induction runs as [|[s e] runs IH]; intros r F H; cbn [region_writes].
  - exists r. split; [reflexivity|]. split; [reflexivity|]. reflexivity.
  - pose proof (Forall_inv F) as Fs. cbv beta iota in Fs. apply Forall_inv_tail in F. unfold write_region. rewrite zlen_slice by lia.
    replace (_ <=? _) with true by lia. cbn [bind].
    destruct (IH (mkRegion (rg_size r) (write_mem (rg_mem r) (addr + s) (slice s e d))) F H) as (r' & E & S & M).
    exists r'. split; [exact E|]. split; [exact S|]. intros x. rewrite M. cbn [rg_mem]. apply write_mem_run; lia.
Qed.
Lemma host_writes_ok addr d : forall runs h,
  Forall (fun '(a, b) => 0 <= a < b /\ b <= zlen d) runs ->
  (forall a k, addr <= a -> a + k <= addr + zlen d -> h_access h a k = true) ->
  exists h', host_writes h addr d runs = (true, h') /\ h_find h' = h_find h /\ h_access h' = h_access h /\
    forall x, h_mem h' x = runs_mem (h_mem h) addr d runs x.
Proof.
  induction runs as [|[s e] runs IH]; intros h F H; cbn [host_writes].
  - exists h. repeat split.
  - pose proof (Forall_inv F) as Fs. cbv beta iota in Fs. apply Forall_inv_tail in F. rewrite zlen_slice by lia.
    rewrite H by lia.
    destruct (IH (mkHost (h_find h) (h_access h) (write_mem (h_mem h) (addr + s) (slice s e d))) F H) as (h' & E & S1 & S2 & M).
    exists h'. split; [exact E|]. split; [exact S1|]. split; [exact S2|]. intros x. rewrite M. cbn [h_mem]. apply write_mem_run; lia.
Qed.
Lemma runs_masked t m base x : 1 <= tlen t -> runs_mem m base (data t) (write_runs t) x = masked_write m base t x.
Proof. intros L. unfold runs_mem, masked_write. rewrite (proj2 (write_runs_ok t L)). reflexivity. Qed.

(** * The handlers *)
Lemma ep_mem_write_ok r off t : 1 <= tlen t -> zlen (data t) = 4 * tlen t -> off mod 4096 + 4 * tlen t <= 4096 -> off + 4 * tlen t <= rg_size r ->
  exists r', ep_mem_write (Some (r, off)) t = Ok (Some r') /\ rg_size r' = rg_size r /\ forall x, rg_mem r' x = masked_write (rg_mem r) off t x.
Proof.
  intros L D P S. unfold ep_mem_write. rewrite land_4095. replace (_ >? _) with false by lia.
  destruct (write_runs_ok t L) as [F _].
  destruct (region_writes_ok off (data t) (write_runs t) r) as (r' & E & Z & M); [rewrite D; exact F|lia|].
  exists r'. rewrite E. split; [reflexivity|]. split; [exact Z|]. intros x. rewrite M. apply runs_masked. exact L.
Qed.
Lemma rc_mem_write_ok h t : 1 <= tlen t -> zlen (data t) = 4 * tlen t -> address t mod 4096 + 4 * tlen t <= 4096 ->
  h_find h (address t) (4 * tlen t) = true ->
  (forall a k, address t <= a -> a + k <= address t + 4 * tlen t -> h_access h a k = true) ->
  h_find (rc_mem_write h t) = h_find h /\ h_access (rc_mem_write h t) = h_access h /\
  forall x, h_mem (rc_mem_write h t) x = masked_write (h_mem h) (address t) t x.
Proof.
  intros L D P Hf Ha. unfold rc_mem_write. rewrite (Z.mul_comm (tlen t)), Hf, land_4095. cbn [negb]. replace (_ >? _) with false by lia.
  destruct (write_runs_ok t L) as [F _].
  destruct (host_writes_ok (address t) (data t) (write_runs t) h) as (h' & E & S1 & S2 & M); [rewrite D; exact F|rewrite D; exact Ha|].
  rewrite E. cbn [snd]. split; [exact S1|]. split; [exact S2|]. intros x. rewrite M. apply runs_masked. exact L.
Qed.
Lemma ep_io_write_ok cid r off t : tlen t = 1 -> zlen (data t) = 4 -> off + 4 <= rg_size r ->
  exists r', ep_io_write cid (Some (r, off)) t = Ok ([set_byte_count 4 (create_completion t cid false SC)], Some r') /\
   rg_size r' = rg_size r /\ forall x, rg_mem r' x = masked_write (rg_mem r) off t x.
Proof.
  intros L D S. unfold ep_io_write. rewrite D, L. cbn -[region_writes set_byte_count]. rewrite io_runs_write by exact L.
  destruct (write_runs_ok t ltac:(lia)) as [F _]. rewrite L in F.
  destruct (region_writes_ok off (data t) (write_runs t) r) as (r' & E & Z & M); [rewrite D; exact F|lia|].
  exists r'. rewrite E. split; [reflexivity|]. split; [exact Z|]. intros x. rewrite M. apply runs_masked. lia.
Qed.
Lemma rc_io_write_ok h t : tlen t = 1 -> zlen (data t) = 4 -> h_find h (address t) 4 = true ->
  (forall a k, address t <= a -> a + k <= address t + 4 -> h_access h a k = true) ->
  exists h', rc_io_write h t = Ok ([set_byte_count 4 (create_completion t id0 false SC)], h') /\
   forall x, h_mem h' x = masked_write (h_mem h) (address t) t x.
Proof.
  intros L D Hf Ha. unfold rc_io_write. rewrite L. change (1 * 4) with 4. rewrite Hf. cbn -[host_writes set_byte_count]. rewrite io_runs_write by exact L.
  destruct (write_runs_ok t ltac:(lia)) as [F _]. rewrite L in F.
  destruct (host_writes_ok (address t) (data t) (write_runs t) h) as (h' & E & S1 & S2 & M); [rewrite D; exact F|rewrite D; exact Ha|].
  rewrite E. exists h'. split; [reflexivity|]. intros x. rewrite M. apply runs_masked. lia.
Qed.

(** * End to end *)
Lemma byte_enabled_addressed t x : 1 <= tlen t -> address t mod 4 = 0 -> (byte_enabled t (x - address t) = true <-> addressed t x).
Proof.
  intros L A. unfold byte_enabled. split.
  - intros H. apply andb_true_iff in H. destruct H as [H1 H2]. apply (addressed_lane t x (x - address t)); try assumption; lia.
  - intros H. destruct H as (i & j & Hi & Hj & -> & E).
    replace (address t + 4 * i + j - address t) with (4 * i + j) by lia.
    replace ((4 * i + j) / 4) with i by lia. replace ((4 * i + j) mod 4) with j by lia. rewrite E. lia.
Qed.
(** The enabled payload bytes of a request with contiguous enables are a slice of the payload. *)
Lemma enabled_slice t a n : 1 <= tlen t -> address t mod 4 = 0 -> zlen (data t) = 4 * tlen t -> 1 <= n ->
  (forall x, addressed t x <-> a <= x < a + n) ->
  address t <= a /\ a + n <= address t + 4 * tlen t /\ enabled_data t = slice (a - address t) (a - address t + n) (data t).
Proof.
  intros L A D Hn H.
  assert (B1 : address t <= a).
  { destruct (proj2 (H a) ltac:(lia)) as (i & j & Hi & Hj & E & _). lia. }
  assert (B2 : a + n <= address t + 4 * tlen t).
  { destruct (proj2 (H (a + n - 1)) ltac:(lia)) as (i & j & Hi & Hj & E & _). lia. }
  split; [exact B1|]. split; [exact B2|].
  set (o := a - address t) in *.
  assert (SP : data t = firstn (Z.to_nat o) (data t) ++ slice o (o + n) (data t) ++ skipn (Z.to_nat (o + n)) (data t)).
  { unfold slice. replace (skipn (Z.to_nat (o + n)) (data t)) with (skipn (Z.to_nat (o + n - o)) (skipn (Z.to_nat o) (data t))).
    - rewrite firstn_skipn, firstn_skipn. reflexivity.
    - rewrite skipn_add. f_equal. lia. }
  assert (LN : forall i, 0 <= i < 4 * tlen t -> (lane_enabled (tlen t) (first_be t) (last_be t) (i / 4) (i mod 4) = true <-> o <= i < o + n)).
  { intros i Hi. rewrite <- (addressed_lane t (address t + i) i) by (try assumption; lia). rewrite H. unfold o. lia. }
  unfold enabled_data. rewrite SP at 1. rewrite !enabled_bytes_app.
  rewrite zlen_firstn by lia. rewrite zlen_slice by lia.
  rewrite enabled_bytes_none.
  2:{ intros j Hj. rewrite zlen_firstn in Hj by lia. apply not_true_iff_false. rewrite LN by lia. lia. }
  rewrite enabled_bytes_all.
  2:{ intros j Hj. rewrite zlen_slice in Hj by lia. apply LN; lia. }
  rewrite enabled_bytes_none.
  2:{ intros j Hj. rewrite zlen_skipn in Hj by lia. apply not_true_iff_false. rewrite LN by lia. lia. }
  cbn [app]. apply app_nil_r.
Qed.
Lemma masked_replaced t a d m base : 1 <= tlen t -> address t mod 4 = 0 -> zlen (data t) = 4 * tlen t -> d <> [] ->
  (forall x, addressed t x <-> a <= x < a + zlen d) -> enabled_data t = d ->
  forall x, masked_write m (address t - base) t x = replaced m (a - base) d x.
Proof.
  intros L A D Hd H E x. assert (Hn : 1 <= zlen d) by (destruct d; [congruence|rewrite zlen_cons; pose proof (zlen_nonneg d); lia]).
  destruct (enabled_slice t a (zlen d) L A D Hn H) as (B1 & B2 & B3). rewrite E in B3.
  unfold masked_write, replaced.
  destruct (byte_enabled t (x - (address t - base))) eqn:Eb.
  - replace (x - (address t - base)) with ((x + base) - address t) in * by lia.
    apply byte_enabled_addressed in Eb; try assumption. apply H in Eb.
    replace (_ && _) with true by lia. rewrite B3. rewrite nth_slice by lia. f_equal. lia.
  - replace (x - (address t - base)) with ((x + base) - address t) in * by lia.
    assert (N : ~ addressed t (x + base)) by (intros C; apply byte_enabled_addressed in C; try assumption; congruence).
    rewrite H in N. replace (_ && _) with false by lia. reflexivity.
Qed.
Lemma replaced_app m a d d' x : replaced (replaced m a d) (a + zlen d) d' x = replaced m a (d ++ d') x.
Proof.
  unfold replaced. rewrite zlen_app. pose proof (zlen_nonneg d). pose proof (zlen_nonneg d').
  destruct ((a + zlen d <=? x) && (x <? a + zlen d + zlen d')) eqn:E1.
  - replace ((a <=? x) && (x <? a + (zlen d + zlen d'))) with true by lia. rewrite app_nth2 by (unfold zlen in *; lia).
    f_equal. unfold zlen in *. lia.
  - destruct ((a <=? x) && (x <? a + zlen d)) eqn:E2.
    + replace ((a <=? x) && (x <? a + (zlen d + zlen d'))) with true by lia. rewrite app_nth1 by (unfold zlen in *; lia). reflexivity.
    + replace ((a <=? x) && (x <? a + (zlen d + zlen d'))) with false by lia. reflexivity.
Qed.
Lemma replaced_nil m a x : replaced m a [] x = m x.
Proof. unfold replaced. rewrite zlen_nil. replace (_ && _) with false by lia. reflexivity. Qed.
Lemma replaced_ext m m' a d x : (forall x, m x = m' x) -> replaced m a d x = replaced m' a d x.
Proof. intros H. unfold replaced. destruct (_ && _); auto. Qed.

Lemma fmt_type_code t ty : fmt_type t = Ok ty -> type_code ty = (fmt t, type_ t).
Proof.
  unfold fmt_type, fmt_type_of. destruct (find _ all_types) as [y|] eqn:E; [|discriminate]. intros K. apply Ok_inj in K. subst y.
  apply find_some in E. destruct E as [_ E]. destruct (type_code ty). cbn in E. f_equal; lia.
Qed.
Lemma request_data lim t : request_ok MEM_WRITE MEM_WRITE_64 lim t -> zlen (data t) = 4 * tlen t.
Proof.
  intros [R1 R2 R3 R4 R5 R6].
  assert (F : (fmt t =? 2) || (fmt t =? 3) = true).
  { apply fmt_type_code in R5. destruct (_ <? _) in R5; cbn in R5; pose proof (f_equal fst R5) as K; cbn in K; lia. }
  unfold tlp_check in R6. rewrite R5, F in R6. cbn [bind] in R6. apply Ok_inj in R6. apply negb_true_iff in R6.
  rewrite !orb_false_iff in R6. lia.
Qed.
Lemma request_page t32 t64 lim t : request_ok t32 t64 lim t -> address t mod 4096 + 4 * tlen t <= 4096.
Proof. intros [R1 R2 R3 R4 R5 R6]. lia. Qed.

Lemma rc_writes_ok lim lo hi : forall ts a d h, covers_write a d ts -> Forall (request_ok MEM_WRITE MEM_WRITE_64 lim) ts ->
  Forall (fun t => lo <= address t /\ address t + 4 * tlen t <= hi) ts ->
  (forall x k, lo <= x -> x + k <= hi -> h_find h x k = true /\ h_access h x k = true) ->
  forall x, h_mem (fold_left rc_mem_write ts h) x = replaced (h_mem h) a d x.
Proof.
  intros ts a d h C. revert h. induction C as [a|a d d' t ts Hd Ha He C IH]; intros h F Rg Hh x.
  - cbn [fold_left]. rewrite replaced_nil. reflexivity.
  - pose proof (Forall_inv F) as R. apply Forall_inv_tail in F. pose proof (Forall_inv Rg) as Rt. cbv beta in Rt. apply Forall_inv_tail in Rg. cbn [fold_left].
    pose proof (request_data _ _ R) as D. pose proof (request_page _ _ _ _ R) as PG. destruct R as [R1 R2 R3 R4 R5 R6].
    destruct (rc_mem_write_ok h t R1 D PG) as (W1 & W2 & W3).
    { apply Hh; lia. }
    { intros y k Y1 Y2. apply Hh; lia. }
    rewrite IH; [|exact F|exact Rg|rewrite W1, W2; exact Hh].
    rewrite <- replaced_app. apply replaced_ext. intros y. rewrite W3.
    pose proof (masked_replaced t a d (h_mem h) 0 R1 R2 D Hd Ha He y) as G. rewrite !Z.sub_0_r in G. exact G.
Qed.
Lemma page_off base size off n : page_safe base size -> 0 <= off -> off + n <= size -> (base + off) mod 4096 + n <= 4096 -> off mod 4096 + n <= 4096.
Proof. intros [[q ->]|H] H1 H2 H3; lia. Qed.
Lemma ep_writes_ok lim base : forall ts a d r, covers_write a d ts -> Forall (request_ok MEM_WRITE MEM_WRITE_64 lim) ts ->
  Forall (fun t => base <= address t /\ address t + 4 * tlen t <= base + rg_size r) ts -> page_safe base (rg_size r) ->
  exists r', ep_write_all base r ts = Ok r' /\ rg_size r' = rg_size r /\ forall x, rg_mem r' x = replaced (rg_mem r) (a - base) d x.
Proof.
  intros ts a d r C. revert r. induction C as [a|a d d' t ts Hd Ha He C IH]; intros r F Rg Hp.
  - exists r. split; [reflexivity|]. split; [reflexivity|]. intros x. rewrite replaced_nil. reflexivity.
  - pose proof (Forall_inv F) as R. apply Forall_inv_tail in F. pose proof (Forall_inv Rg) as Rt. cbv beta in Rt. apply Forall_inv_tail in Rg.
    cbn [ep_write_all]. pose proof (request_data _ _ R) as D. pose proof (request_page _ _ _ _ R) as PG. destruct R as [R1 R2 R3 R4 R5 R6].
    destruct (ep_mem_write_ok r (address t - base) t R1 D) as (r' & E & S & M).
    { apply (page_off base (rg_size r)); try assumption; try lia. }
    { lia. }
    rewrite E. destruct (IH r') as (r2 & E2 & S2 & M2); [exact F|rewrite S; exact Rg|rewrite S; exact Hp|].
    exists r2. split; [exact E2|]. split; [congruence|]. intros x. rewrite M2, <- replaced_app.
    replace (a - base + zlen d) with (a + zlen d - base) by lia.
    apply replaced_ext. intros y. rewrite M. apply masked_replaced; assumption.
Qed.

Lemma write_split_range c z : 0 <= rq_mps c -> forall fuel addr d, Forall (fun t =>
    4 * (addr / 4) <= address t /\ address t + 4 * tlen t <= 4 * ((addr + zlen d + 3) / 4)) (write_split fuel c z addr d).
Proof.
  intros Hm. induction fuel as [|f IH]; intros addr d; [constructor|]. cbn [write_split]. pose proof (zlen_nonneg d).
  destruct (0 <? zlen d) eqn:E; [|constructor].
  destruct (write_len_spec (rq_mps c) addr (zlen d) Hm ltac:(lia)) as (K1 & K2 & K3).
  set (k := write_len (rq_mps c) addr (zlen d)) in *.
  set (r0 := new_mem_req c addr MEM_WRITE MEM_WRITE_64).
  assert (LS : zlen (slice 0 k d) = k) by (rewrite zlen_slice; lia).
  assert (NE : slice 0 k d <> []) by (intros X; rewrite X in LS; cbn in LS; lia).
  destruct (set_addr_be_data_shape addr (slice 0 k d) r0 NE) as (_ & E2 & _ & _ & E5).
  destruct (set_addr_be_minimal addr (zlen (slice 0 k d)) (set_address (Z.land addr (Z.lnot 3)) r0) ltac:(lia)) as [A L].
  rewrite <- E5 in A. rewrite <- E2 in L. rewrite LS in L.
  set (u := set_addr_be_data addr (slice 0 k d) r0) in *.
  constructor.
  - assert (G : forall w, address w = address u -> tlen w = tlen u -> 4 * (addr / 4) <= address w /\ address w + 4 * tlen w <= 4 * ((addr + zlen d + 3) / 4)) by (intros; lia).
    destruct z; apply G; reflexivity.
  - specialize (IH (addr + k) (skipn (Z.to_nat k) d)). revert IH. apply Forall_impl. intros t. rewrite zlen_skipn by lia. lia.
Qed.

Lemma mem_write_rc c h addr d : 0 <= rq_mps c -> rq_bus_master c = true -> d <> [] ->
  (forall a k, hull_lo addr <= a -> a + k <= hull_hi addr (zlen d) -> h_find h a k = true /\ h_access h a k = true) ->
  exists ts, mem_write c addr d = Ok ts /\ forall x, h_mem (fold_left rc_mem_write ts h) x = replaced (h_mem h) addr d x.
Proof.
  intros Hm Hb Hd Hh. destruct (mem_write_ok c addr d Hm Hd Hb) as (ts & E & C & F). exists ts. split; [exact E|].
  assert (Hn : 1 <= zlen d) by (destruct d; [congruence|rewrite zlen_cons; pose proof (zlen_nonneg d); lia]).
  apply (rc_writes_ok (128 * 2 ^ rq_mps c) (hull_lo addr) (hull_hi addr (zlen d))); try assumption.
  - eapply Forall_impl; [|exact F]. intros t [R _]. exact R.
  - unfold mem_write in E. rewrite Hb in E. cbn [negb] in E. cbv zeta in E. apply Ok_inj in E. subst ts.
    replace (zlen d =? 0) with false by lia. unfold hull_lo, hull_hi. replace (Z.max (zlen d) 1) with (zlen d) by lia. apply write_split_range. exact Hm.
Qed.
Lemma mem_write_ep c r base addr d : 0 <= rq_mps c -> rq_bus_master c = true -> d <> [] -> page_safe base (rg_size r) ->
  base <= hull_lo addr -> hull_hi addr (zlen d) <= base + rg_size r ->
  exists ts r', mem_write c addr d = Ok ts /\ ep_write_all base r ts = Ok r' /\ rg_size r' = rg_size r /\
    forall x, rg_mem r' x = replaced (rg_mem r) (addr - base) d x.
Proof.
  intros Hm Hb Hd Hp H1 H2. destruct (mem_write_ok c addr d Hm Hd Hb) as (ts & E & C & F). exists ts.
  assert (Hn : 1 <= zlen d) by (destruct d; [congruence|rewrite zlen_cons; pose proof (zlen_nonneg d); lia]).
  destruct (ep_writes_ok (128 * 2 ^ rq_mps c) base ts addr d r C) as (r' & E' & S & M).
  - eapply Forall_impl; [|exact F]. intros t [R _]. exact R.
  - unfold mem_write in E. rewrite Hb in E. cbn [negb] in E. cbv zeta in E. apply Ok_inj in E. subst ts.
    replace (zlen d =? 0) with false by lia.
    eapply Forall_impl; [|apply (write_split_range c false Hm (length d) addr d)]. cbv beta. intros t. unfold hull_lo, hull_hi in *. lia.
  - exact Hp.
  - exists r'. auto.
Qed.
(** A zero-length write sends one request that changes nothing. *)
Lemma mem_write_zero c addr : 0 <= rq_mps c -> rq_bus_master c = true ->
  exists t, mem_write c addr [] = Ok [t] /\ tlen t = 1 /\ zlen (data t) = 4 /\ address t = hull_lo addr /\
    (forall a, ~ addressed t a) /\ forall m base x, masked_write m base t x = m x.
Proof.
  intros Hm Hb. unfold mem_write. rewrite Hb. cbn [negb]. cbv zeta. change (zlen (@nil Z) =? 0) with true. cbn match. change (length [0]) with 1%nat.
  cbn [write_split]. change (0 <? zlen [0]) with true. cbn match. change (zlen [0]) with 1.
  destruct (write_len_spec (rq_mps c) addr 1 Hm ltac:(lia)) as (K & _). cbv zeta in K. replace (write_len (rq_mps c) addr 1) with 1 by lia.
  change (slice 0 1 [0]) with [0].
  set (r0 := new_mem_req c addr MEM_WRITE MEM_WRITE_64). 
  destruct (set_addr_be_data_ok addr [0] r0 ltac:(discriminate)) as (D1 & _ & _ & _).
  destruct (set_addr_be_data_shape addr [0] r0 ltac:(discriminate)) as (_ & E2 & _ & _ & E5).
  change (zlen [0]) with 1 in *.
  destruct (set_addr_be_minimal addr 1 (set_address (Z.land addr (Z.lnot 3)) r0) ltac:(lia)) as [A L].
  rewrite <- E5 in A. rewrite <- E2 in L.
  set (v := set_addr_be_data addr [0] r0) in *. exists (set_first_be 0 v).
  assert (T : tlen (set_first_be 0 v) = 1) by (change (tlen v = 1); lia).
  split; [reflexivity|]. split; [exact T|]. split; [change (zlen (data v) = 4); lia|].
  split; [exact A|].
  assert (N : forall i, byte_enabled (set_first_be 0 v) i = false).
  { intros i. unfold byte_enabled. rewrite T. change (first_be (set_first_be 0 v)) with 0.
    destruct ((0 <=? i) && (i <? 4 * 1)) eqn:G; [|reflexivity]. unfold lane_enabled. replace (i / 4 =? 0) with true by lia.
    cbn [andb]. apply Z.bits_0. }
  split.
  - intros a H. apply byte_enabled_addressed in H; [rewrite N in H; discriminate|lia|].
    change (address v mod 4 = 0). lia.
  - intros m base x. unfold masked_write. rewrite N. reflexivity.
Qed.
