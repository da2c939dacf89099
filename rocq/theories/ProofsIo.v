(** IO accesses. *)
From Verif Require Import Base BaseProofs Bits ModelUtils ProofsUtils ModelTlp SpecTlp ProofsTlp ProofsTlpCodec ProofsTlpBe
  ModelRegion ModelCompleter SpecMem ProofsMem ProofsMemE2e ProofsMemWrite.

Lemma list4 (d : list Z) : zlen d = 4 -> d = map (fun i => nth (Z.to_nat i) d 0) [0; 1; 2; 3].
Proof.
  intros H. destruct d as [|a [|b [|c [|e [|f d]]]]]; cbn in H; try discriminate; [reflexivity|].
  exfalso. unfold zlen in H. cbn [length] in H. lia.
Qed.
Lemma nth_read_mem m a n i : 0 <= i < n -> nth (Z.to_nat i) (read_mem m a n) 0 = m (a + i).
Proof.
  intros H. unfold read_mem. rewrite (nth_indep _ 0 (m (a + Z.of_nat 0))) by (rewrite map_length, seq_length; lia).
  rewrite (map_nth (fun i => m (a + Z.of_nat i))). rewrite seq_nth by lia. f_equal. lia.
Qed.
Lemma read_runs_ok rd m addr : (forall s e, 0 <= s < e -> e <= 4 -> rd (addr + s) (e - s) = read_mem m (addr + s) (e - s)) ->
  forall runs d, Forall (fun '(a, b) => 0 <= a < b /\ b <= 4) runs -> zlen d = 4 ->
  zlen (read_runs rd addr runs d) = 4 /\
  forall i, 0 <= i < 4 -> nth (Z.to_nat i) (read_runs rd addr runs d) 0 = if in_runs runs i then m (addr + i) else nth (Z.to_nat i) d 0.
Proof.
  intros Hr. induction runs as [|[s e] runs IH]; intros d F D; cbn [read_runs].
  - split; [exact D|]. reflexivity.
  - pose proof (Forall_inv F) as Fs. cbv beta iota in Fs. apply Forall_inv_tail in F. rewrite Hr by lia.
    set (d' := firstn (Z.to_nat s) d ++ read_mem m (addr + s) (e - s) ++ skipn (Z.to_nat e) d).
    assert (D' : zlen d' = 4).
    { unfold d'. rewrite !zlen_app, zlen_firstn, read_mem_length, zlen_skipn by lia. lia. }
    destruct (IH d' F D') as [I1 I2]. split; [exact I1|]. intros i Hi. rewrite I2 by exact Hi.
    cbn [in_runs existsb]. fold (in_runs runs i). destruct (in_runs runs i); [rewrite orb_true_r; reflexivity|]. rewrite orb_false_r.
    unfold d'. pose proof (zlen_firstn s d ltac:(lia)) as L1. unfold zlen in L1, D.
    destruct (Z.leb_spec s i) as [H1|H1].
    + rewrite app_nth2 by lia. replace (Z.to_nat i - length (firstn (Z.to_nat s) d))%nat with (Z.to_nat (i - s)) by lia.
      destruct (Z.ltb_spec i e) as [H2|H2].
      * rewrite app_nth1 by (rewrite read_mem_len; lia). rewrite nth_read_mem by lia. cbn [andb]. f_equal. lia.
      * rewrite app_nth2 by (rewrite read_mem_len; lia). rewrite read_mem_len, nth_skipn_add. cbn [andb]. f_equal. lia.
    + rewrite app_nth1 by lia. rewrite nth_firstn_lt by lia. reflexivity.
Qed.

Lemma io_runs_ok t : tlen t = 1 -> Forall (fun '(a, b) => 0 <= a < b /\ b <= 4) (io_runs t) /\ forall i, in_runs (io_runs t) i = byte_enabled t i.
Proof. intros E. rewrite io_runs_write by exact E. pose proof (write_runs_ok t ltac:(lia)) as H. rewrite E in H. exact H. Qed.

Lemma io_data rd m addr t : tlen t = 1 -> (forall s e, 0 <= s < e -> e <= 4 -> rd (addr + s) (e - s) = read_mem m (addr + s) (e - s)) ->
  read_runs rd addr (io_runs t) (zeros 4) = map (fun i => if byte_enabled t i then m (addr + i) else 0) [0; 1; 2; 3].
Proof.
  intros E Hr. destruct (io_runs_ok t E) as [F I].
  destruct (read_runs_ok rd m addr Hr (io_runs t) (zeros 4) F eq_refl) as [L N].
  rewrite (list4 _ L). apply map_ext_in. intros i Hi. assert (0 <= i < 4) by (cbn in Hi; lia). rewrite N by assumption. rewrite I.
  destruct (byte_enabled t i); [reflexivity|].
  assert (C : i = 0 \/ i = 1 \/ i = 2 \/ i = 3) by lia. destruct C as [-> | [-> | [-> | ->]]]; reflexivity.
Qed.
Lemma ep_io_read_ok cid r base t tg : tlen t = 1 -> base <= address t -> address t + 4 <= base + rg_size r ->
  exists c, ep_io_read cid (Some (r, address t - base)) (set_tag tg t) = Ok [c] /\ good_io_answer (bus_mem r base) t c
   /\ answers cid (set_tag tg t) c.
Proof.
  intros L H1 H2. unfold ep_io_read. change (tlen (set_tag tg t)) with (tlen t). rewrite L. cbn -[read_runs set_tlen set_byte_count tlp_set_data zeros].
  eexists. split; [reflexivity|]. split; split; try reflexivity.
  change (data _) with (read_runs (read_region r) (address t - base) (io_runs (set_tag tg t)) (zeros 4)).
  rewrite (io_data _ (rg_mem r)).
  - apply map_ext. intros i. change (byte_enabled (set_tag tg t) i) with (byte_enabled t i). unfold bus_mem. 
    destruct (byte_enabled t i); [f_equal; lia|reflexivity].
  - exact L.
  - intros s e S1 S2. unfold read_region. f_equal. lia.
Qed.
Lemma rc_io_read_ok h t tg : tlen t = 1 -> h_find h (address t) 4 = true ->
  (forall a k, address t <= a -> a + k <= address t + 4 -> h_access h a k = true) ->
  exists c, rc_io_read h (set_tag tg t) = Ok [c] /\ good_io_answer (h_mem h) t c /\ answers id0 (set_tag tg t) c.
Proof.
  intros L Hf Ha. unfold rc_io_read. change (tlen (set_tag tg t)) with (tlen t). change (address (set_tag tg t)) with (address t).
  rewrite L. change (1 * 4) with 4. rewrite Hf. cbn -[read_runs set_tlen set_byte_count tlp_set_data zeros forallb].
  change (io_runs (set_tag tg t)) with (io_runs t).
  replace (forallb _ (io_runs t)) with true.
  2:{ symmetry. apply forallb_forall. intros [s e] I. apply (proj1 (Forall_forall _ _) (proj1 (io_runs_ok t L))) in I. apply Ha; lia. }
  cbn -[read_runs set_tlen set_byte_count tlp_set_data zeros].
  eexists. split; [reflexivity|]. split; split; try reflexivity.
  change (data _) with (read_runs (read_mem (h_mem h)) (address t) (io_runs (set_tag tg t)) (zeros 4)).
  rewrite (io_data _ (h_mem h)); [reflexivity|exact L|reflexivity].
Qed.

(** * The requester *)

Lemma io_len_spec addr rem : 1 <= rem -> let k := Z.min rem (4 - addr mod 4) in 1 <= k <= rem /\ addr mod 4 + k <= 4 /\ (k < rem -> addr mod 4 + k = 4).
Proof. cbv zeta. lia. Qed.

Lemma set_addr_be_last addr k t : 1 <= k -> addr mod 4 + k <= 4 -> last_be (snd (set_addr_be addr k t)) = 0 /\ tlen (snd (set_addr_be addr k t)) = 1.
Proof.
  intros H H1. destruct (set_addr_be_image addr k t H) as [_ _ UL UB _]. set (u := snd _) in *. clearbody u.
  assert (T : tlen u = 1) by (rewrite UL; lia). split; [|exact T]. rewrite T in UB. cbn match in UB.
  apply (f_equal snd) in UB. exact UB.
Qed.
Lemma io_check ty c t : In ty [IO_READ; IO_WRITE] -> fmt_type t = Ok ty -> tlen t = 1 -> (has_data t = true -> zlen (data t) = 4) ->
  address t mod 4 = 0 -> last_be t = 0 -> requester_id t = rq_id c -> io_req_ok ty c t.
Proof.
  intros I T L D A B R. repeat split; try assumption.
  apply (check_complete ty); [exact T|]. split.
  - intros F. rewrite L. split; [symmetry; apply D|lia]. unfold has_data. destruct F as [-> | ->]; reflexivity.
  - intros H. exfalso. cbn [In] in *. intuition (subst; discriminate).
  - intros _. auto.
  - intros H. exfalso. cbn [In] in *. intuition (subst; discriminate).
  - intros H. exfalso. cbn [In] in *. intuition (subst; discriminate).
Qed.

Lemma io_read_split_ok c : forall fuel addr rem, 0 <= rem <= Z.of_nat fuel ->
  exists ops, covers_read addr rem ops /\ map snd ops = map snd (io_read_split fuel c false addr rem) /\
  Forall (fun kt => io_req_ok IO_READ c (snd kt) /\ hull_lo addr <= address (snd kt) /\ address (snd kt) + 4 <= 4 * ((addr + rem + 3) / 4))
    (io_read_split fuel c false addr rem).
Proof.
  induction fuel as [|f IH]; intros addr rem H.
  - assert (rem = 0) by lia. subst. exists []. repeat constructor.
  - cbn [io_read_split]. destruct (0 <? rem) eqn:E; [|assert (rem = 0) by lia; subst; exists []; repeat constructor].
    destruct (io_len_spec addr rem ltac:(lia)) as (K1 & K2 & K3). set (k := Z.min rem (4 - addr mod 4)) in *.
    set (r0 := set_requester_id (rq_id c) (set_fmt_type IO_READ tlp0)).
    destruct (IH (addr + k) (rem - k) ltac:(lia)) as (ops & C & S & F).
    exists ((k, snd (set_addr_be addr k r0)) :: ops). split; [|split].
    + replace rem with (k + (rem - k)) by lia. apply cr_cons; [lia| |exact C]. apply set_addr_be_addressed. lia.
    + cbn [map snd]. f_equal. exact S.
    + destruct (set_addr_be_frame addr k r0) as (F1 & F2 & F3 & F4 & F5 & F6 & F7).
      destruct (set_addr_be_minimal addr k r0 ltac:(lia)) as [A L]. destruct (set_addr_be_last addr k r0 ltac:(lia) K2) as [LB T].
      set (u := snd (set_addr_be addr k r0)) in *. constructor.
      * cbn [snd]. split; [|unfold hull_lo; lia]. apply io_check; try assumption.
        -- cbn; auto.
        -- unfold fmt_type. rewrite F1, F2. reflexivity.
        -- intros X. unfold has_data in X. rewrite F1 in X. discriminate X.
        -- lia.
      * revert F. apply Forall_impl. intros [x t] [G1 G2]. cbn [snd] in *. split; [exact G1|]. unfold hull_lo in *. lia.
Qed.

Lemma io_chunk m addr k t : 1 <= k -> addr mod 4 + k <= 4 ->
  let u := snd (set_addr_be addr k t) in
  exists pad, skipn (Z.to_nat (addr mod 4)) (map (fun i => if byte_enabled u i then m (address u + i) else 0) [0; 1; 2; 3]) = read_mem m addr k ++ pad
   /\ (addr mod 4 + k = 4 -> pad = []).
Proof.
  intros H1 H2. cbv zeta. destruct (set_addr_be_minimal addr k t ltac:(lia)) as [A L]. pose proof (set_addr_be_addressed addr k t H1) as AD.
  set (u := snd (set_addr_be addr k t)) in *. clearbody u.
  assert (B : forall i, byte_enabled u i = (addr mod 4 <=? i) && (i <? addr mod 4 + k)).
  { intros i. apply eq_true_iff_eq. replace i with (address u + i - address u) at 1 by lia. rewrite byte_enabled_addressed by lia.
    rewrite AD. lia. }
  exists (zeros (Z.to_nat (4 - (addr mod 4 + k)))). split; [|intros E; rewrite E; reflexivity].
  cbn [map]. rewrite !B, A. unfold read_mem.
  assert (C : addr mod 4 = 0 \/ addr mod 4 = 1 \/ addr mod 4 = 2 \/ addr mod 4 = 3) by lia.
  assert (C' : k = 1 \/ k = 2 \/ k = 3 \/ k = 4) by lia.
  assert (EA : forall j, 4 * (addr / 4) + j = addr + (j - addr mod 4)) by (intros; lia).
  rewrite !EA.
  destruct C as [M|[M|[M|M]]]; rewrite M in *; destruct C' as [-> | [-> | [-> | ->]]]; try lia; reflexivity.
Qed.
Lemma io_read_join_ok c m incoming : forall fuel addr rem i acc, 0 <= rem <= Z.of_nat fuel ->
  (forall j t, In t (map snd (io_read_split fuel c false addr rem)) -> exists a tl, incoming j t = a :: tl /\ good_io_answer m t a) ->
  exists pad, io_read_join incoming i (io_read_split fuel c false addr rem) acc = Ok (acc ++ read_mem m addr rem ++ pad).
Proof.
  induction fuel as [|f IH]; intros addr rem i acc H A.
  - assert (rem = 0) by lia. subst. exists []. cbn. rewrite app_nil_r. reflexivity.
  - cbn [io_read_split] in *. destruct (0 <? rem) eqn:E; [|assert (rem = 0) by lia; subst; exists []; cbn; rewrite app_nil_r; reflexivity].
    destruct (io_len_spec addr rem ltac:(lia)) as (K1 & K2 & K3). set (k := Z.min rem (4 - addr mod 4)) in *.
    set (r0 := set_requester_id (rq_id c) (set_fmt_type IO_READ tlp0)) in *.
    pose proof (io_chunk m addr k r0 ltac:(lia) K2) as CH.
    destruct (set_addr_be_frame addr k r0) as (F1 & F2 & _).
    set (u := snd (set_addr_be addr k r0)) in *. cbv zeta in CH. destruct CH as (pad & CH & PD).
    cbn [map snd] in A. destruct (A i u (or_introl eq_refl)) as (a & tl & Il & [G1 G2 G3]).
    cbn [io_read_join]. unfold nonposted. rewrite Il.
    replace (is_mem_read u) with false by (unfold is_mem_read, fmt_type; rewrite F1, F2; reflexivity).
    assert (CL : collect false (a :: tl) = [a]) by (cbn [collect]; destruct (negb _); reflexivity).
    rewrite CL, G1, G2. change (negb (0 =? SC)) with false. change (negb (1 =? 1)) with false. cbn match. rewrite G3, CH.
    destruct (Z.eq_dec k rem) as [Er|Nr].
    + exists pad. rewrite Er in *. replace (rem - rem) with 0 by lia.
      destruct f; cbn [io_read_split io_read_join]; reflexivity.
    + rewrite PD, app_nil_r by lia. destruct (IH (addr + k) (rem - k) (S i) (acc ++ read_mem m addr k)) as [pad' ->]; [lia|intros j t It; apply A; right; exact It|].
      exists pad'. rewrite <- app_assoc. do 2 f_equal. rewrite app_assoc, <- read_mem_app by lia. do 2 f_equal. lia.
Qed.
Lemma io_read_e2e c m incoming addr n : rq_bus_master c = true -> 1 <= n ->
  (forall j t, In t (map snd (io_read_split (Z.to_nat n) c false addr n)) -> exists a tl, incoming j t = a :: tl /\ good_io_answer m t a) ->
  io_read c incoming addr n = Ok (read_mem m addr n).
Proof.
  intros Hb Hn A. unfold io_read. rewrite Hb. cbn [negb]. replace (n <=? 0) with false by lia.
  destruct (io_read_join_ok c m incoming (Z.to_nat n) addr n 0 [] ltac:(lia) A) as [pad ->]. cbn [bind app]. f_equal.
  rewrite firstn_app, read_mem_len, Nat.sub_diag. cbn [firstn]. rewrite app_nil_r. apply firstn_all2. rewrite read_mem_len. lia.
Qed.
Lemma io_read_ep c cid r base tg tl addr n : rq_bus_master c = true -> 1 <= n -> base <= hull_lo addr -> hull_hi addr n <= base + rg_size r ->
  io_read c (fun j t => match ep_io_read cid (Some (r, address t - base)) (set_tag (tg j) t) with Ok l => l ++ tl j | Err _ => [] end) addr n
  = Ok (read_mem (rg_mem r) (addr - base) n).
Proof.
  intros Hb Hn H1 H2. rewrite bus_mem_read. apply io_read_e2e; try assumption.
  intros j t I. destruct (io_read_split_ok c (Z.to_nat n) addr n ltac:(lia)) as (_ & _ & _ & F).
  apply in_map_iff in I. destruct I as ([x u] & <- & I). apply (proj1 (Forall_forall _ _) F) in I. cbn [snd] in *.
  destruct I as [(T & _) R]. unfold hull_hi in H2. replace (Z.max n 1) with n in H2 by lia.
  destruct (ep_io_read_ok cid r base u (tg j) T) as (a & E & G & _); [lia|lia|].
  rewrite E. exists a, (tl j). split; [reflexivity|exact G].
Qed.

(** * IO writes *)
Lemma io_write_split_ok c : forall fuel addr d, zlen d <= Z.of_nat fuel ->
  covers_write addr d (io_write_split fuel c false addr d) /\
  Forall (fun t => io_req_ok IO_WRITE c t /\ zlen (data t) = 4 /\ hull_lo addr <= address t /\ address t + 4 <= 4 * ((addr + zlen d + 3) / 4))
    (io_write_split fuel c false addr d).
Proof.
  induction fuel as [|f IH]; intros addr d Hf.
  - assert (d = []) by (destruct d; [reflexivity|rewrite zlen_cons in Hf; pose proof (zlen_nonneg d); lia]). subst d. split; constructor.
  - cbn [io_write_split]. pose proof (zlen_nonneg d). destruct (0 <? zlen d) eqn:E.
    2:{ assert (d = []) by (destruct d; [reflexivity|rewrite zlen_cons in E; pose proof (zlen_nonneg d); lia]). subst d. split; constructor. }
    destruct (io_len_spec addr (zlen d) ltac:(lia)) as (K1 & K2 & K3). set (k := Z.min (zlen d) (4 - addr mod 4)) in *.
    set (r0 := set_requester_id (rq_id c) (set_fmt_type IO_WRITE tlp0)).
    assert (S : slice 0 k d = firstn (Z.to_nat k) d) by (unfold slice; cbn [skipn Z.to_nat]; f_equal; lia).
    rewrite S.
    assert (LS : zlen (firstn (Z.to_nat k) d) = k) by (apply zlen_firstn; lia).
    assert (NE : firstn (Z.to_nat k) d <> []) by (intros X; rewrite X in LS; cbn in LS; lia).
    destruct (IH (addr + k) (skipn (Z.to_nat k) d) ltac:(rewrite zlen_skipn by lia; lia)) as [C F].
    destruct (set_addr_be_data_ok addr (firstn (Z.to_nat k) d) r0 NE) as (D1 & D2 & D3 & D4).
    split.
    + rewrite <- (firstn_skipn (Z.to_nat k) d) at 1. apply cw_cons; [exact NE|exact D2|exact D4|].
      rewrite LS. exact C.
    + destruct (set_addr_be_data_frame addr (firstn (Z.to_nat k) d) r0) as (F1 & F2 & F3 & F4 & F5 & F6).
      destruct (set_addr_be_data_shape addr (firstn (Z.to_nat k) d) r0 NE) as (_ & E2 & _ & E4 & E5).
      destruct (set_addr_be_minimal addr (zlen (firstn (Z.to_nat k) d)) (set_address (Z.land addr (Z.lnot 3)) r0) ltac:(lia)) as [A L].
      destruct (set_addr_be_last addr (zlen (firstn (Z.to_nat k) d)) (set_address (Z.land addr (Z.lnot 3)) r0) ltac:(lia) ltac:(lia)) as [LB T].
      rewrite <- E5 in A. rewrite <- E2 in L, T. rewrite LS in L. rewrite <- E4 in LB.
      set (u := set_addr_be_data addr _ r0) in *.
      constructor.
      * split; [|split; [lia|unfold hull_lo; lia]]. apply io_check; try assumption.
        -- cbn; auto.
        -- unfold fmt_type. rewrite F1, F2. reflexivity.
        -- intros _. lia.
        -- lia.
      * revert F. apply Forall_impl. intros t (G1 & G2 & G3). split; [exact G1|]. split; [exact G2|]. rewrite zlen_skipn in G3 by lia. unfold hull_lo in *. lia.
Qed.
Lemma ep_io_writes_ok cid base tg c : forall ts a d, covers_write a d ts -> forall i r,
  Forall (fun t => io_req_ok IO_WRITE c t /\ zlen (data t) = 4 /\ base <= address t /\ address t + 4 <= base + rg_size r) ts ->
  exists css r', ep_io_write_all cid base tg i r ts = Ok (css, r') /\ rg_size r' = rg_size r /\ 
    (forall x, rg_mem r' x = replaced (rg_mem r) (a - base) d x) /\
    forall pre, length pre = i -> io_write_join (fun j _ => nth j (pre ++ css) []) i ts = Ok tt.
Proof.
  intros ts a d C. induction C as [a|a d d' t ts Hd Ha He C IH]; intros i r F.
  - exists [], r. split; [reflexivity|]. split; [reflexivity|]. split; [intros x; rewrite replaced_nil; reflexivity|reflexivity].
  - pose proof (Forall_inv F) as ((T & A & Ty & _) & D & R1 & R2). apply Forall_inv_tail in F. cbn [ep_io_write_all].
    destruct (ep_io_write_ok cid r (address t - base) (set_tag (tg i) t) T D ltac:(lia)) as (r1 & E & Sz & M).
    rewrite E. destruct (IH (S i) r1) as (css & r' & E' & S' & M' & J).
    { revert F. apply Forall_impl. rewrite Sz. auto. }
    rewrite E'. cbn [bind]. eexists. exists r'. split; [reflexivity|]. split; [congruence|]. split.
    + intros x. rewrite M', <- replaced_app. replace (a - base + zlen d) with (a + zlen d - base) by lia.
      apply replaced_ext. intros y. rewrite M. change (masked_write (rg_mem r) (address t - base) (set_tag (tg i) t) y) with (masked_write (rg_mem r) (address t - base) t y).
      apply masked_replaced; try assumption; lia.
    + intros pre Hp. cbn [io_write_join]. rewrite app_nth2 by lia. rewrite Hp, Nat.sub_diag. cbn [nth].
      unfold nonposted. replace (is_mem_read t) with false by (unfold is_mem_read; rewrite Ty; reflexivity).
      cbn [collect]. change (status (set_byte_count 4 (create_completion (set_tag (tg i) t) cid false SC))) with 0. change (negb (0 =? SC)) with false. cbn match.
      specialize (J (pre ++ [[set_byte_count 4 (create_completion (set_tag (tg i) t) cid false SC)]])).
      rewrite <- app_assoc in J. apply J. rewrite app_length. cbn. lia.
Qed.
Lemma io_write_ep c cid base tg r addr d : rq_bus_master c = true -> d <> [] -> base <= hull_lo addr -> hull_hi addr (zlen d) <= base + rg_size r ->
  exists ts css r', io_write c addr d = Ok ts /\ ep_io_write_all cid base tg 0 r ts = Ok (css, r') /\
    io_write_join (fun j _ => nth j css []) 0 ts = Ok tt /\ rg_size r' = rg_size r /\
    (forall x, rg_mem r' x = replaced (rg_mem r) (addr - base) d x).
Proof.
  intros Hb Hd H1 H2. assert (Hn : 1 <= zlen d) by (destruct d; [congruence|rewrite zlen_cons; pose proof (zlen_nonneg d); lia]).
  unfold io_write. rewrite Hb. cbn [negb]. cbv zeta. replace (zlen d =? 0) with false by lia.
  destruct (io_write_split_ok c (length d) addr d ltac:(unfold zlen; lia)) as [C F].
  destruct (ep_io_writes_ok cid base tg c _ _ _ C 0%nat r) as (css & r' & E & S & M & J).
  - revert F. apply Forall_impl. intros t (G1 & G2 & G3). split; [exact G1|]. split; [exact G2|]. unfold hull_lo, hull_hi in *. lia.
  - exists (io_write_split (length d) c false addr d), css, r'. split; [reflexivity|]. split; [exact E|]. split; [apply (J []); reflexivity|]. split; assumption.
Qed.
Lemma io_read_requests c n addr : 1 <= n ->
  exists ops, covers_read addr n ops /\ map snd ops = map snd (io_read_split (Z.to_nat n) c false addr n) /\
  Forall (fun kt => io_req_ok IO_READ c (snd kt)) (io_read_split (Z.to_nat n) c false addr n).
Proof.
  intros H. destruct (io_read_split_ok c (Z.to_nat n) addr n ltac:(lia)) as (ops & C & S & F). exists ops. split; [exact C|]. split; [exact S|].
  revert F. apply Forall_impl. tauto.
Qed.
Lemma io_write_requests c addr d : rq_bus_master c = true -> d <> [] ->
  exists ts, io_write c addr d = Ok ts /\ covers_write addr d ts /\ Forall (io_req_ok IO_WRITE c) ts.
Proof.
  intros Hb Hd. assert (Hn : 1 <= zlen d) by (destruct d; [congruence|rewrite zlen_cons; pose proof (zlen_nonneg d); lia]).
  unfold io_write. rewrite Hb. cbn [negb]. cbv zeta. replace (zlen d =? 0) with false by lia.
  destruct (io_write_split_ok c (length d) addr d ltac:(unfold zlen; lia)) as [C F]. eexists. split; [reflexivity|]. split; [exact C|].
  revert F. apply Forall_impl. tauto.
Qed.

(** ** Zero-length accesses *)
Lemma io_write_zero c addr : rq_bus_master c = true ->
  exists t, io_write c addr [] = Ok [t] /\ fmt_type t = Ok IO_WRITE /\ tlen t = 1 /\ zlen (data t) = 4 /\ address t = hull_lo addr /\
    (forall a, ~ addressed t a) /\ forall m base x, masked_write m base t x = m x.
Proof.
  intros Hb. unfold io_write. rewrite Hb. cbn [negb]. cbv zeta. change (zlen (@nil Z) =? 0) with true. cbn match. change (length [0]) with 1%nat.
  cbn [io_write_split]. change (0 <? zlen [0]) with true. cbn match. change (zlen [0]) with 1.
  replace (Z.min 1 (4 - addr mod 4)) with 1 by lia.
  change (slice 0 1 [0]) with [0]. change (skipn (Z.to_nat 1) [0]) with (@nil Z).
  set (r0 := set_requester_id (rq_id c) (set_fmt_type IO_WRITE tlp0)).
  destruct (set_addr_be_data_ok addr [0] r0 ltac:(discriminate)) as (D1 & _ & _ & _).
  destruct (set_addr_be_data_shape addr [0] r0 ltac:(discriminate)) as (E1 & E2 & E3 & E4 & E5).
  change (zlen [0]) with 1 in *.
  destruct (set_addr_be_minimal addr 1 (set_address (Z.land addr (Z.lnot 3)) r0) ltac:(lia)) as [A L].
  rewrite <- E5 in A. rewrite <- E2 in L.
  assert (TY : fmt_type (set_addr_be_data addr [0] r0) = Ok IO_WRITE).
  { destruct (set_addr_be_data_frame addr [0] r0) as (F1 & F2 & _). unfold fmt_type. rewrite F1, F2. reflexivity. }
  set (v := set_addr_be_data addr [0] r0) in *. exists (set_first_be 0 v).
  assert (T : tlen (set_first_be 0 v) = 1) by (change (tlen v = 1); lia).
  split; [reflexivity|]. split; [exact TY|]. split; [exact T|]. split; [change (zlen (data v) = 4); lia|].
  split; [exact A|].
  assert (N : forall i, byte_enabled (set_first_be 0 v) i = false).
  { intros i. unfold byte_enabled. rewrite T. change (first_be (set_first_be 0 v)) with 0.
    destruct ((0 <=? i) && (i <? 4 * 1)) eqn:G; [|reflexivity]. unfold lane_enabled. replace (i / 4 =? 0) with true by lia.
    cbn [andb]. apply Z.bits_0. }
  split.
  - intros a H. apply byte_enabled_addressed in H; [rewrite N in H; discriminate|lia|].
    change (address v mod 4 = 0). lia.
  - intros m base x. unfold masked_write. rewrite N. reflexivity.
Qed.
Lemma io_read_zero c addr incoming : rq_bus_master c = true ->
  exists t, io_read_split 1 c true addr 1 = [(addr mod 4, t)] /\ fmt_type t = Ok IO_READ /\ tlen t = 1 /\
    address t = hull_lo addr /\ (forall a, ~ addressed t a) /\
    ((exists a tl, incoming 0%nat t = a :: tl /\ status a = 0 /\ tlen a = 1) <-> io_read c incoming addr 0 = Ok []).
Proof.
  intros Hb. cbn [io_read_split]. change (0 <? 1) with true. cbn match.
  replace (Z.min 1 (4 - addr mod 4)) with 1 by lia. change (1 - 1) with 0.
  set (r0 := set_requester_id (rq_id c) (set_fmt_type IO_READ tlp0)).
  destruct (set_addr_be_frame addr 1 r0) as (F1 & F2 & _).
  destruct (set_addr_be_minimal addr 1 r0 ltac:(lia)) as [A L].
  set (v := snd (set_addr_be addr 1 r0)) in *. exists (set_first_be 0 v).
  assert (T : tlen (set_first_be 0 v) = 1) by (change (tlen v = 1); lia).
  assert (Ty : fmt_type (set_first_be 0 v) = Ok IO_READ) by (unfold fmt_type; cbn [fmt type_ set_first_be]; rewrite F1, F2; reflexivity).
  split; [reflexivity|]. split; [exact Ty|]. split; [exact T|]. split; [exact A|].
  assert (N : forall i, byte_enabled (set_first_be 0 v) i = false).
  { intros i. unfold byte_enabled. rewrite T. change (first_be (set_first_be 0 v)) with 0.
    destruct ((0 <=? i) && (i <? 4 * 1)) eqn:G; [|reflexivity]. unfold lane_enabled. replace (i / 4 =? 0) with true by lia.
    cbn [andb]. apply Z.bits_0. }
  split.
  - intros a H. apply byte_enabled_addressed in H; [rewrite N in H; discriminate|lia|].
    change (address v mod 4 = 0). lia.
  - unfold io_read. rewrite Hb. change (0 <=? 0) with true. cbn match. cbn [negb]. change (Z.to_nat 1) with 1%nat. cbn [io_read_split].
    change (0 <? 1) with true. cbn match. replace (Z.min 1 (4 - addr mod 4)) with 1 by lia. fold r0. fold v.
    cbn [io_read_join]. unfold nonposted, is_mem_read. rewrite Ty.
    destruct (incoming 0%nat (set_first_be 0 v)) as [|a l].
    + cbn [collect bind]. split; [intros (a & tl & X & _); discriminate X|intros X; discriminate X].
    + cbn [collect]. change SC with 0. destruct (status a =? 0) eqn:Es; cbn [negb].
      * rewrite ?Es; destruct (tlen a =? 1) eqn:El; cbn [negb bind].
        -- split; [reflexivity|]. intros _. exists a, l. split; [reflexivity|]. lia.
        -- split; [|intros X; discriminate X]. intros (b & tl & X & Y). injection X as <- <-. lia.
      * rewrite ?Es. cbn [negb bind]. split; [|intros X; discriminate X]. intros (b & tl & X & Y). injection X as <- <-. lia.
Qed.
