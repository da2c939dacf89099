(** Memory accesses: request splitting, completion splitting, byte enables, end to end. *)
From Verif Require Import Base BaseProofs Bits ModelUtils ProofsUtils ModelTlp SpecTlp ProofsTlp ProofsTlpCodec ProofsTlpBe
  ModelRegion ModelCompleter SpecMem.

(** * Lists and memory *)
Lemma nth_firstn_lt {A} n k (l : list A) x : (k < n)%nat -> nth k (firstn n l) x = nth k l x.
Proof.
  revert k l. induction n as [|n IH]; intros k l H; [lia|]. destruct l as [|y l]; [reflexivity|].
  destruct k as [|k]; [reflexivity|]. cbn. apply IH. lia.
Qed.
Lemma nth_skipn_add {A} n k (l : list A) x : nth k (skipn n l) x = nth (n + k) l x.
Proof.
  revert l. induction n as [|n IH]; intros l; [reflexivity|]. destruct l as [|y l]; [destruct k; reflexivity|]. cbn. apply IH.
Qed.
Lemma skipn_add {A} i j (l : list A) : skipn i (skipn j l) = skipn (j + i) l.
Proof.
  revert l. induction j as [|j IH]; intros l; [reflexivity|]. destruct l as [|y l]; [destruct i; reflexivity|]. cbn. apply IH.
Qed.
Lemma zlen_firstn {A} n (l : list A) : 0 <= n <= zlen l -> zlen (firstn (Z.to_nat n) l) = n.
Proof. unfold zlen. intros H. rewrite firstn_length. lia. Qed.
Lemma zlen_skipn {A} n (l : list A) : 0 <= n <= zlen l -> zlen (skipn (Z.to_nat n) l) = zlen l - n.
Proof. unfold zlen. intros H. rewrite skipn_length. lia. Qed.
Lemma zlen_slice {A} i j (l : list A) : 0 <= i <= j -> j <= zlen l -> zlen (slice i j l) = j - i.
Proof. intros H1 H2. unfold slice. rewrite zlen_firstn; [reflexivity|]. rewrite zlen_skipn by lia. lia. Qed.
Lemma nth_slice {A} i j (l : list A) k x : 0 <= i <= j -> 0 <= k < j - i ->
  nth (Z.to_nat k) (slice i j l) x = nth (Z.to_nat (i + k)) l x.
Proof.
  intros H1 H2. unfold slice. rewrite nth_firstn_lt, nth_skipn_add by lia. f_equal. lia.
Qed.
Lemma slice_app_l {A} i j (a b : list A) : 0 <= i <= j -> j <= zlen a -> slice i j (a ++ b) = slice i j a.
Proof.
  intros H1 H2. unfold slice. rewrite skipn_app, firstn_app.
  replace (Z.to_nat (j - i) - length (skipn (Z.to_nat i) a))%nat with 0%nat.
  2:{ rewrite skipn_length. unfold zlen in H2. lia. }
  cbn [firstn]. apply app_nil_r.
Qed.
Lemma slice_over {A} i j k (l : list A) : 0 <= i -> zlen l <= j -> zlen l <= k -> slice i j l = slice i k l.
Proof.
  intros H1 H2 H3. unfold slice. unfold zlen in *. rewrite !firstn_all2; [reflexivity| |]; rewrite skipn_length; lia.
Qed.
Lemma slice_split {A} i j (a b : list A) : 0 <= i <= zlen a -> zlen a <= j -> 
  slice i j (a ++ b) = slice i (zlen a) a ++ slice 0 (j - zlen a) b.
Proof.
  intros H1 H2. unfold slice. rewrite skipn_app, firstn_app. unfold zlen in *. f_equal.
  - rewrite !firstn_all2; [reflexivity| |]; rewrite skipn_length; lia.
  - rewrite skipn_length. replace (Z.to_nat i - length a)%nat with 0%nat by lia. cbn [skipn Z.to_nat].
    f_equal. lia.
Qed.

Lemma read_mem_length m a n : 0 <= n -> zlen (read_mem m a n) = n.
Proof. intros H. unfold zlen, read_mem. rewrite map_length, seq_length. lia. Qed.
Lemma read_mem_app m a n k : 0 <= n -> 0 <= k -> read_mem m a (n + k) = read_mem m a n ++ read_mem m (a + n) k.
Proof.
  intros Hn Hk. unfold read_mem. rewrite Z2Nat.inj_add, seq_app, map_app by lia. f_equal.
  cbn [plus]. rewrite <- (Nat.add_0_r (Z.to_nat n)) at 1. 
  assert (G : forall k s, map (fun i => m (a + Z.of_nat i)) (List.seq (Z.to_nat n + s) k) =
     map (fun i => m (a + n + Z.of_nat i)) (List.seq s k)).
  { clear k Hk. induction k as [|k IH]; intros s; [reflexivity|]. cbn [List.seq map]. f_equal; [f_equal; lia|].
    rewrite <- IH. do 2 f_equal. lia. }
  apply G.
Qed.
Lemma read_mem_len m a n : length (read_mem m a n) = Z.to_nat n.
Proof. unfold read_mem. rewrite map_length, seq_length. reflexivity. Qed.
Lemma read_mem_slice m a n i j : 0 <= i <= j -> j <= n -> slice i j (read_mem m a n) = read_mem m (a + i) (j - i).
Proof.
  intros H1 H2. replace n with (i + ((j - i) + (n - j))) by lia. rewrite !read_mem_app by lia.
  unfold slice. rewrite skipn_app, read_mem_len, Nat.sub_diag. rewrite skipn_all2 by (rewrite read_mem_len; lia).
  cbn [app skipn]. rewrite firstn_app, read_mem_len, Nat.sub_diag. cbn [firstn]. rewrite app_nil_r.
  apply firstn_all2. rewrite read_mem_len. lia.
Qed.
Lemma read_mem_ext m m' a n : (forall x, a <= x < a + n -> m x = m' x) -> read_mem m a n = read_mem m' a n.
Proof.
  intros H. unfold read_mem. apply map_ext_in. intros i I. apply in_seq in I. apply H. lia.
Qed.

(** * Requests *)
Lemma set_addr_be_frame addr len t : 
  let u := snd (set_addr_be addr len t) in
  fmt u = fmt t /\ type_ u = type_ t /\ tc u = tc t /\ attr u = attr t /\ requester_id u = requester_id t /\ tag u = tag t
  /\ data u = data t.
Proof. unfold set_addr_be. cbv zeta. destruct (_ =? 0); [|destruct (_ =? 1)]; repeat split; reflexivity. Qed.
Lemma set_addr_be_data_frame addr d t : 
  let u := set_addr_be_data addr d t in
  fmt u = fmt t /\ type_ u = type_ t /\ tc u = tc t /\ attr u = attr t /\ requester_id u = requester_id t /\ tag u = tag t.
Proof.
  unfold set_addr_be_data. cbv zeta. pose proof (set_addr_be_frame addr (zlen d) (set_address (Z.land addr (Z.lnot 3)) t)) as H.
  destruct (set_addr_be addr (zlen d) _) as [[fp lp] u]. cbn [snd] in H. cbv zeta in H. exact (let '(conj a (conj b (conj c (conj d (conj e (conj f _)))))) := H in
    conj a (conj b (conj c (conj d (conj e f))))).
Qed.

Lemma shiftl_pow k m : 0 <= m -> Z.shiftl k m = k * 2 ^ m.
Proof. intros H. apply Z.shiftl_mul_pow2. exact H. Qed.
Lemma land_4095 a : Z.land a 4095 = a mod 4096.
Proof. change 4095 with (Z.ones 12). rewrite Z.land_ones by lia. reflexivity. Qed.
Lemma land_127 a : Z.land a 127 = a mod 128.
Proof. change 127 with (Z.ones 7). rewrite Z.land_ones by lia. reflexivity. Qed.
Lemma land_3 a : Z.land a 3 = a mod 4.
Proof. change 3 with (Z.ones 2). rewrite Z.land_ones by lia. reflexivity. Qed.
Lemma pow2_pos m : 0 <= m -> 1 <= 2 ^ m.
Proof. intros H. assert (0 < 2 ^ m) by (apply Z.pow_pos_nonneg; lia). lia. Qed.

Lemma read_len_spec mrrs addr rem : 0 <= mrrs -> 1 <= rem ->
  let k := read_len mrrs addr rem in
  1 <= k <= rem /\ addr mod 4 + k <= 128 * 2 ^ mrrs /\ addr mod 4096 + k <= 4096.
Proof.
  intros Hm Hr. unfold read_len. cbv zeta. rewrite shiftl_pow, land_127, land_4095 by lia.
  pose proof (pow2_pos mrrs Hm). destruct (_ >? _) eqn:E; lia.
Qed.
Lemma write_len_spec mps addr rem : 0 <= mps -> 1 <= rem ->
  let k := write_len mps addr rem in
  1 <= k <= rem /\ addr mod 4 + k <= 128 * 2 ^ mps /\ addr mod 4096 + k <= 4096.
Proof.
  intros Hm Hr. unfold write_len. cbv zeta. rewrite shiftl_pow, land_4095 by lia.
  pose proof (pow2_pos mps Hm). lia.
Qed.

(** A request of [k] bytes at [addr] that does not cross a page and obeys the limit. *)
Lemma fmt_type_set ty t : fmt_type (set_fmt_type ty t) = Ok ty.
Proof. destruct ty; reflexivity. Qed.
Lemma fmt_type_frame u t ty : fmt u = fmt t -> type_ u = type_ t -> fmt_type t = Ok ty -> fmt_type u = Ok ty.
Proof. unfold fmt_type. intros -> ->. auto. Qed.

Lemma request_shape u addr k lim c t32 t64 :
  fmt_type (new_mem_req c addr t32 t64) = Ok (if addr >? 0xffffffff then t64 else t32) ->
  fmt u = fmt (new_mem_req c addr t32 t64) -> type_ u = type_ (new_mem_req c addr t32 t64) ->
  In t32 [MEM_READ; MEM_WRITE] -> In t64 [MEM_READ_64; MEM_WRITE_64] ->
  (has_data u = true -> zlen (data u) = 4 * tlen u) ->
  1 <= k -> addr mod 4 + k <= 128 * lim -> addr mod 4096 + k <= 4096 ->
  address u = 4 * (addr / 4) -> tlen u = (addr + k - 1) / 4 - addr / 4 + 1 ->
  request_ok t32 t64 (128 * lim) u.
Proof.
  intros T Ef Et I32 I64 D Hk Hl Hp A L.
  assert (TY : fmt_type u = Ok (if address u <? 2 ^ 32 then t32 else t64)).
  { rewrite (fmt_type_frame _ _ _ Ef Et T). f_equal. change (2 ^ 32) with 4294967296.
    destruct (addr >? 4294967295) eqn:E1; destruct (address u <? 4294967296) eqn:E2; lia || reflexivity. }
  split; [lia|lia|lia|lia|exact TY|].
  apply (check_complete (if address u <? 2 ^ 32 then t32 else t64)); [exact TY|]. split.
  - intros F. split; [symmetry; apply D|lia]. unfold has_data. destruct F as [-> | ->]; reflexivity.
  - intros _. lia.
  - intros H. exfalso. clear - H I32 I64. destruct (_ <? _); cbn [In] in *; intuition (subst; discriminate).
  - intros H. exfalso. clear - H I32 I64. destruct (_ <? _); cbn [In] in *; intuition (subst; discriminate).
  - intros H. exfalso. clear - H I32 I64. destruct (_ <? _); cbn [In] in *; intuition (subst; discriminate).
Qed.

Lemma new_mem_req_type c addr t32 t64 : fmt_type (new_mem_req c addr t32 t64) = Ok (if addr >? 0xffffffff then t64 else t32).
Proof. unfold new_mem_req. apply (fmt_type_set (if addr >? 4294967295 then t64 else t32)). Qed.

Lemma read_split_ok c : 0 <= rq_mrrs c -> forall fuel addr rem, 0 <= rem -> rem <= Z.of_nat fuel ->
  covers_read addr rem (read_split fuel c false addr rem) /\
  Forall (fun kt => request_ok MEM_READ MEM_READ_64 (128 * 2 ^ rq_mrrs c) (snd kt)
     /\ requester_id (snd kt) = rq_id c /\ tc (snd kt) = rq_tc c /\ attr (snd kt) = rq_attr c) (read_split fuel c false addr rem).
Proof.
  intros Hm. induction fuel as [|f IH]; intros addr rem H0 Hf.
  - assert (rem = 0) by lia. subst rem. split; constructor.
  - cbn [read_split]. destruct (0 <? rem) eqn:E; [|assert (rem = 0) by lia; subst rem; split; constructor].
    destruct (read_len_spec (rq_mrrs c) addr rem Hm ltac:(lia)) as (K1 & K2 & K3).
    set (k := read_len (rq_mrrs c) addr rem) in *.
    set (r0 := new_mem_req c addr MEM_READ MEM_READ_64). 
    destruct (IH (addr + k) (rem - k) ltac:(lia) ltac:(lia)) as [C F].
    split.
    + replace rem with (k + (rem - k)) at 1 by lia. apply cr_cons; [lia| |exact C].
      apply set_addr_be_addressed. lia.
    + apply Forall_cons; [|exact F]. cbn [snd].
      destruct (set_addr_be_frame addr k r0) as (F1 & F2 & F3 & F4 & F5 & F6 & F7).
      destruct (set_addr_be_minimal addr k r0 ltac:(lia)) as [A L].
      split; [|split; [exact F5|split; [exact F3|exact F4]]].
      apply (request_shape _ addr k (2 ^ rq_mrrs c) c); try assumption.
      * apply new_mem_req_type.
      * cbn; auto.
      * cbn; auto.
      * intros H. exfalso. unfold has_data in H. rewrite F1 in H. unfold r0, new_mem_req in H.
        destruct (addr >? 4294967295); discriminate H.
      * lia.
Qed.

Lemma read_ops_ok c addr n : 0 <= rq_mrrs c -> 1 <= n ->
  covers_read addr n (read_ops c addr n) /\
  Forall (fun kt => request_ok MEM_READ MEM_READ_64 (128 * 2 ^ rq_mrrs c) (snd kt)
     /\ requester_id (snd kt) = rq_id c /\ tc (snd kt) = rq_tc c /\ attr (snd kt) = rq_attr c) (read_ops c addr n).
Proof.
  intros Hm Hn. unfold read_ops. replace (n <=? 0) with false by lia. apply read_split_ok; [exact Hm|lia|lia].
Qed.

Lemma write_split_ok c : 0 <= rq_mps c -> forall fuel addr d, zlen d <= Z.of_nat fuel ->
  covers_write addr d (write_split fuel c false addr d) /\
  Forall (fun t => request_ok MEM_WRITE MEM_WRITE_64 (128 * 2 ^ rq_mps c) t
     /\ requester_id t = rq_id c /\ tc t = rq_tc c /\ attr t = rq_attr c) (write_split fuel c false addr d).
Proof.
  intros Hm. induction fuel as [|f IH]; intros addr d Hf.
  - assert (d = []) by (destruct d; [reflexivity|rewrite zlen_cons in Hf; pose proof (zlen_nonneg d); lia]). subst d. split; constructor.
  - cbn [write_split]. pose proof (zlen_nonneg d). destruct (0 <? zlen d) eqn:E.
    2:{ assert (d = []) by (destruct d; [reflexivity|rewrite zlen_cons in E; pose proof (zlen_nonneg d); lia]). subst d. split; constructor. }
    destruct (write_len_spec (rq_mps c) addr (zlen d) Hm ltac:(lia)) as (K1 & K2 & K3).
    set (k := write_len (rq_mps c) addr (zlen d)) in *.
    set (r0 := new_mem_req c addr MEM_WRITE MEM_WRITE_64).
    assert (S : slice 0 k d = firstn (Z.to_nat k) d) by (unfold slice; cbn [skipn Z.to_nat]; f_equal; lia).
    rewrite S.
    assert (LS : zlen (firstn (Z.to_nat k) d) = k) by (apply zlen_firstn; lia).
    assert (NE : firstn (Z.to_nat k) d <> []) by (intros X; rewrite X in LS; cbn in LS; lia).
    destruct (IH (addr + k) (skipn (Z.to_nat k) d) ltac:(rewrite zlen_skipn by lia; lia)) as [C F].
    destruct (set_addr_be_data_ok addr (firstn (Z.to_nat k) d) r0 NE) as (D1 & D2 & D3 & D4).
    split.
    + rewrite <- (firstn_skipn (Z.to_nat k) d) at 1. apply cw_cons; [exact NE|exact D2|exact D4|].
      rewrite LS. exact C.
    + apply Forall_cons; [|exact F].
      destruct (set_addr_be_data_frame addr (firstn (Z.to_nat k) d) r0) as (F1 & F2 & F3 & F4 & F5 & F6).
      split; [|split; [exact F5|split; [exact F3|exact F4]]].
      destruct (set_addr_be_data_shape addr (firstn (Z.to_nat k) d) r0 NE) as (_ & E2 & _ & _ & E5).
      destruct (set_addr_be_minimal addr (zlen (firstn (Z.to_nat k) d)) (set_address (Z.land addr (Z.lnot 3)) r0) ltac:(lia)) as [A L].
      rewrite <- E5 in A. rewrite <- E2 in L. rewrite LS in L.
      apply (request_shape _ addr k (2 ^ rq_mps c) c); try assumption.
      * apply new_mem_req_type.
      * cbn; auto.
      * cbn; auto.
      * intros _. exact D1.
      * lia.
Qed.

Lemma mem_write_ok c addr d : 0 <= rq_mps c -> d <> [] -> rq_bus_master c = true ->
  exists ts, mem_write c addr d = Ok ts /\ covers_write addr d ts /\
  Forall (fun t => request_ok MEM_WRITE MEM_WRITE_64 (128 * 2 ^ rq_mps c) t
     /\ requester_id t = rq_id c /\ tc t = rq_tc c /\ attr t = rq_attr c) ts.
Proof.
  intros Hm Hd Hb. unfold mem_write. rewrite Hb. cbn [negb].
  destruct (Z.eqb_spec (zlen d) 0) as [E|E].
  { exfalso. destruct d; [congruence|]. rewrite zlen_cons in E. pose proof (zlen_nonneg d). lia. }
  eexists. split; [reflexivity|]. apply write_split_ok; [exact Hm|unfold zlen; lia].
Qed.

(** * Completions *)
Lemma be_offsets t : 1 <= tlen t -> 0 <= first_be t < 16 ->
  0 <= get_first_be_offset t <= 3 /\ 0 <= get_last_be_offset t <= 3 /\
  get_first_be_offset t + get_last_be_offset t < 4 * tlen t.
Proof.
  intros L F. unfold get_first_be_offset, get_last_be_offset. cbv zeta.
  destruct (Z.eqb_spec (tlen t) 1) as [E|E].
  - rewrite E. assert (C : In (first_be t) (map Z.of_nat (List.seq 0 16))).
    { apply in_map_iff. exists (Z.to_nat (first_be t)). split; [lia|]. apply in_seq. lia. }
    cbn in C. repeat destruct C as [C|C]; try contradiction; rewrite <- C; cbn; lia.
  - repeat match goal with |- context [if ?b then _ else _] => destruct b end; lia.
Qed.

Lemma rcb_mask_val rcb a : rcb = 64 \/ rcb = 128 -> Z.land a (Z.land (rcb - 1) 252) = a mod rcb - a mod 4.
Proof.
  intros [-> | ->].
  - change (Z.land (64 - 1) 252) with (Z.shiftl (Z.ones 4) 2).
    replace (a mod 64 - a mod 4) with (Z.shiftl (Z.land (Z.shiftr a 2) (Z.ones 4)) 2).
    + apply Z.bits_inj'. intros i Hi. rewrite Z.land_spec, !Z.shiftl_spec, Z.land_spec by lia.
      destruct (Z.leb_spec 2 i); [rewrite Z.shiftr_spec by lia; do 2 f_equal; lia|].
      rewrite !(Z.testbit_neg_r _ (i - 2)) by lia. rewrite !andb_false_r. reflexivity.
    + rewrite Z.shiftl_mul_pow2, Z.shiftr_div_pow2, Z.land_ones by lia. change (2 ^ 2) with 4. change (2 ^ 4) with 16. lia.
  - change (Z.land (128 - 1) 252) with (Z.shiftl (Z.ones 5) 2).
    replace (a mod 128 - a mod 4) with (Z.shiftl (Z.land (Z.shiftr a 2) (Z.ones 5)) 2).
    + apply Z.bits_inj'. intros i Hi. rewrite Z.land_spec, !Z.shiftl_spec, Z.land_spec by lia.
      destruct (Z.leb_spec 2 i); [rewrite Z.shiftr_spec by lia; do 2 f_equal; lia|].
      rewrite !(Z.testbit_neg_r _ (i - 2)) by lia. rewrite !andb_false_r. reflexivity.
    + rewrite Z.shiftl_mul_pow2, Z.shiftr_div_pow2, Z.land_ones by lia. change (2 ^ 2) with 4. change (2 ^ 5) with 32. lia.
Qed.
Lemma shiftr2 a : Z.shiftr a 2 = a / 4.
Proof. rewrite Z.shiftr_div_pow2 by lia. reflexivity. Qed.


(** The number of DWORDs of one completion. *)
Lemma cpl_dw_spec mps rcb (split_all : bool) addr rem : 0 <= mps -> rcb = 64 \/ rcb = 128 -> 1 <= rem ->
  let k := if split_all then Z.min rem (Z.shiftr (rcb - Z.land addr (Z.land (rcb - 1) 252)) 2)
           else if rem >? Z.shiftl 32 mps then Z.shiftl 32 mps - Z.shiftr (Z.land addr (Z.land (rcb - 1) 252)) 2
           else rem in
  1 <= k <= rem /\ 4 * k <= split_limit mps rcb split_all /\ (k < rem -> (rcb | addr - addr mod 4 + 4 * k)).
Proof.
  intros Hm Hr H1. rewrite rcb_mask_val by exact Hr. rewrite !shiftr2, shiftl_pow by lia. pose proof (pow2_pos mps Hm).
  unfold split_limit. destruct split_all.
  - cbv zeta. split; [destruct Hr as [-> | ->]; lia|]. split; [destruct Hr as [-> | ->]; lia|].
    intros L. destruct Hr as [-> | ->].
    + exists ((addr / 64) + 1). lia.
    + exists ((addr / 128) + 1). lia.
  - destruct (Z.gtb_spec rem (32 * 2 ^ mps)) as [G|G]; cbv zeta.
    + split; [destruct Hr as [-> | ->]; lia|]. split; [destruct Hr as [-> | ->]; lia|].
      intros L. destruct Hr as [-> | ->].
      * exists (addr / 64 + 2 * 2 ^ mps). lia.
      * exists (addr / 128 + 2 ^ mps). lia.
    + split; [lia|]. split; [lia|]. lia.
Qed.

Lemma cpl_split_good cid t mps rcb split_all d dw bl : 0 <= mps -> rcb = 64 \/ rcb = 128 -> zlen d = 4 * dw ->
  forall fuel m n addr, dw - m <= Z.of_nat fuel -> 0 <= m < dw -> 1 <= bl - n ->
  4 * (dw - m) - 3 <= addr mod 4 + (bl - n) <= 4 * (dw - m) ->
  good_split rcb (split_limit mps rcb split_all) addr (bl - n) (skipn (Z.to_nat (4 * m)) d)
    (cpl_split fuel cid t (Z.shiftl 32 mps) rcb split_all d dw bl m n addr)
  /\ Forall (answers cid t) (cpl_split fuel cid t (Z.shiftl 32 mps) rcb split_all d dw bl m n addr).
Proof.
  intros Hm Hr Hd. induction fuel as [|f IH]; intros m n addr Hf H0 H1 H2; [lia|].
  cbn [cpl_split]. replace (m <? dw) with true by lia. cbv zeta. cbv zeta in IH.
  destruct (cpl_dw_spec mps rcb split_all addr (dw - m) Hm Hr ltac:(lia)) as (K1 & K2 & K3). cbv zeta in K1, K2, K3.
  set (k := if split_all then Z.min _ _ else _) in *. clearbody k.
  set (c := tlp_set_data _ _).
  assert (CD : data c = slice (m * 4) ((m + k) * 4) d) by reflexivity.
  assert (CB : byte_count c = bl - n) by reflexivity.
  assert (CL : lower_address c = addr mod 128) by (unfold c; change (Z.land addr 127 = addr mod 128); apply land_127).
  assert (CS : zlen (slice (m * 4) ((m + k) * 4) d) = 4 * k) by (rewrite zlen_slice; lia).
  assert (CT : 4 * tlen c = 4 * k) by (change (tlen c) with (zlen (slice (m * 4) ((m + k) * 4) d) / 4); rewrite CS; lia).
  assert (CA : answers cid t c) by (split; reflexivity).
  clearbody c. rewrite !land_3.
  assert (SP : skipn (Z.to_nat (4 * m)) d = slice (m * 4) ((m + k) * 4) d ++ skipn (Z.to_nat (4 * (m + k))) d).
  { unfold slice. replace (m * 4) with (4 * m) by lia. 
    rewrite <- (firstn_skipn (Z.to_nat ((m + k) * 4 - 4 * m)) (skipn (Z.to_nat (4 * m)) d)) at 1. f_equal.
    rewrite skipn_add. f_equal. lia. }
  destruct (Z.eq_dec k (dw - m)) as [E|E].
  - replace (cpl_split f _ _ _ _ _ _ _ _ (m + k) _ _) with (@nil tlp).
    2:{ destruct f; [reflexivity|]. cbn [cpl_split]. replace (m + k <? dw) with false by lia. reflexivity. }
    split; [|constructor; [exact CA|constructor]].
    rewrite SP, skipn_all2, app_nil_r by (unfold zlen in Hd; lia).
    apply gs_last; try assumption; try lia.
  - destruct (IH (m + k) (n + (k * 4 - addr mod 4)) (addr + (k * 4 - addr mod 4))) as [G F]; try lia.
    split; [|constructor; [exact CA|exact F]].
    rewrite SP. apply gs_more; try assumption; try lia.
    + rewrite CS. apply K3. lia.
    + rewrite CS. replace (addr - addr mod 4 + 4 * k) with (addr + (k * 4 - addr mod 4)) by lia.
      replace (addr mod 4 + (bl - n) - 4 * k) with (bl - (n + (k * 4 - addr mod 4))) by lia. exact G.
Qed.

Lemma completions_good cid t mps rcb split_all d : read_request t -> 0 <= mps -> rcb = 64 \/ rcb = 128 -> zlen d = 4 * tlen t ->
  good_split rcb (split_limit mps rcb split_all) (address t + get_first_be_offset t) (get_be_byte_count t) d
    (completions cid t mps rcb split_all d)
  /\ Forall (answers cid t) (completions cid t mps rcb split_all d).
Proof.
  intros [L B A] Hm Hr Hd. unfold completions. destruct (be_offsets t L B) as (O1 & O2 & O3).
  unfold get_be_byte_count in *.
  pose proof (cpl_split_good cid t mps rcb split_all d (tlen t) (tlen t * 4 - get_first_be_offset t - get_last_be_offset t) Hm Hr Hd
    (Z.to_nat (tlen t)) 0 0 (address t + get_first_be_offset t)) as G.
  rewrite !Z.sub_0_r in G. change (skipn (Z.to_nat (4 * 0)) d) with d in G. apply G; lia.
Qed.

(** A completion of a correct split passes validation. *)
Lemma good_split_check cid t rcb limit : forall a n d cs, good_split rcb limit a n d cs -> Forall (answers cid t) cs -> limit <= 4096 ->
  Forall (fun c => tlp_check c = Ok true) cs.
Proof.
  assert (G : forall c, answers cid t c -> zlen (data c) <= 4096 -> 4 * tlen c = zlen (data c) -> 
     4 * tlen c <= byte_count c + lower_address c mod 4 + 3 -> tlp_check c = Ok true).
  { intros c [Ty _ _ _ _ _ _] H0 H1 H2. apply (check_complete CPL_DATA); [exact Ty|]. pose proof (zlen_nonneg (data c)).
    split; try (intros H3; cbn [In] in H3; exfalso; intuition discriminate).
    - intros _. lia.
    - intros _. exact H2. }
  induction 1 as [a n d c H1 H2 H3 H4 H5 H6 H7|a n d d' c cs H2 H3 H4 H5 H6 H7 H8 H9 IH]; intros F Hl;
    inversion F as [|x l Hx Hl' E1]; subst.
  - constructor; [|constructor]. apply G; try assumption; lia.
  - constructor; [|apply IH; assumption]. apply G; try assumption; lia.
Qed.

(** * Joining completions *)
Lemma collect_good rcb limit cid t : forall a n d cs, good_split rcb limit a n d cs -> Forall (answers cid t) cs ->
  (4 | rcb) -> forall tl, collect true (cs ++ tl) = cs.
Proof.
  induction 1 as [a n d c H1 H2 H3 H4 H5 H6 H7|a n d d' c cs H2 H3 H4 H5 H6 H7 H8 H9 IH]; intros F Hr tl;
    inversion F as [|x l Hx Hl' E1]; subst; cbn [app collect]; rewrite (an_status _ _ _ Hx); change (negb (0 =? SC)) with false; cbn match;
    rewrite land_3, H3.
  - replace (_ <=? _) with true by lia. reflexivity.
  - replace (_ <=? _) with false by lia. rewrite (an_type _ _ _ Hx). cbn match. f_equal. apply IH; assumption.
Qed.

Lemma read_join_good rcb limit cid t total : forall a n d cs, good_split rcb limit a n d cs -> Forall (answers cid t) cs -> (4 | rcb) ->
  forall m acc tl, m + n = total -> 0 <= m ->
  read_join total m (cs ++ tl) acc = Ok (acc ++ slice (a mod 4) (a mod 4 + n) d) /\ zlen d >= a mod 4 + n.
Proof.
  induction 1 as [a n d c H1 H2 H3 H4 H5 H6 H7|a n d d' c cs H2 H3 H4 H5 H6 H7 H8 H9 IH]; intros F Hr m acc tl Ht Hm.
  - inversion F as [|x l Hx Hl' E1]; subst. cbn [app read_join]. replace (m <? _) with true by lia.
    rewrite (an_status _ _ _ Hx). change (negb (0 =? SC)) with false. cbn match.
    rewrite land_3, H3. replace (_ >=? _) with true by lia. cbn [negb].
    replace (byte_count c =? _) with true by lia. cbn [negb].
    replace ((a mod 128) mod 4) with (a mod 4) by lia.
    split; [|lia]. destruct tl as [|y tl]; cbn [read_join]; replace (_ <? _) with false by lia; reflexivity.
  - inversion F as [|x l Hx Hl' E1]; subst. cbn [app read_join].
    assert (B : 1 <= a mod 4 + byte_count c - zlen (data c)) by lia.
    replace (m <? _) with true by lia.
    rewrite (an_status _ _ _ Hx). change (negb (0 =? SC)) with false. cbn match.
    rewrite land_3, H3. replace (_ >=? _) with true by lia. cbn [negb].
    replace (byte_count c =? _) with true by lia. cbn [negb].
    replace ((a mod 128) mod 4) with (a mod 4) by lia.
    destruct (IH Hl' Hr (m + (zlen (data c) - a mod 4)) (acc ++ slice (a mod 4) (a mod 4 + byte_count c) (data c)) tl ltac:(lia) ltac:(lia)) as [R L].
    replace (m + byte_count c) with (m + (zlen (data c) - a mod 4) + (a mod 4 + byte_count c - zlen (data c))) at 1 by lia.
    assert (A4 : (a - a mod 4 + zlen (data c)) mod 4 = 0) by lia.
    rewrite A4 in R, L. 
    replace (m + byte_count c) with (m + (zlen (data c) - a mod 4) + (a mod 4 + byte_count c - zlen (data c))) in R by lia.
    rewrite R. split.
    + rewrite <- app_assoc. do 2 f_equal. rewrite slice_split by lia.
      f_equal. apply slice_over; lia.
    + rewrite zlen_app. lia.
Qed.
