(** Memory accesses from requester to completer and back. *)
From Verif Require Import Base BaseProofs Bits ModelUtils ProofsUtils ModelTlp SpecTlp ProofsTlp ProofsTlpCodec ProofsTlpBe
  ModelRegion ModelCompleter SpecMem ProofsMem.

(** * Spans of read requests *)
Lemma lane_enum be : 0 <= be < 16 -> In be (map Z.of_nat (List.seq 0 16)).
Proof. intros H. apply in_map_iff. exists (Z.to_nat be). split; [lia|]. apply in_seq. lia. Qed.
Lemma first_offset_lane t : 0 <= first_be t < 16 -> get_first_be_offset t = low_lane (first_be t).
Proof.
  intros H. unfold get_first_be_offset. apply lane_enum in H. cbn in H.
  repeat destruct H as [H|H]; try contradiction; rewrite <- H; reflexivity.
Qed.
Lemma last_offset_lane t : 0 <= first_be t < 16 -> 0 <= last_be t < 16 ->
  get_last_be_offset t = 3 - high_lane (if tlen t =? 1 then first_be t else last_be t).
Proof.
  intros H1 H2. unfold get_last_be_offset. cbv zeta.
  assert (H : 0 <= (if tlen t =? 1 then first_be t else last_be t) < 16) by (destruct (_ =? _); assumption).
  set (be := if _ =? _ then _ else _) in *. clearbody be. apply lane_enum in H. cbn in H.
  repeat destruct H as [H|H]; try contradiction; rewrite <- H; reflexivity.
Qed.
Lemma span_first t : 0 <= first_be t < 16 -> first_byte t = address t + get_first_be_offset t.
Proof. intros H. unfold first_byte. rewrite first_offset_lane by exact H. reflexivity. Qed.
Lemma span_count t : 0 <= first_be t < 16 -> 0 <= last_be t < 16 ->
  last_byte t - first_byte t + 1 = get_be_byte_count t.
Proof.
  intros H1 H2. unfold first_byte, last_byte, get_be_byte_count.
  rewrite first_offset_lane, last_offset_lane by assumption. lia.
Qed.
(** The span is the hull of the addressed bytes. *)
Lemma span_hull t : 1 <= tlen t -> 0 < first_be t < 16 -> (tlen t = 1 \/ 0 < last_be t < 16) ->
  addressed t (first_byte t) /\ addressed t (last_byte t) /\
  forall x, addressed t x -> first_byte t <= x <= last_byte t.
Proof.
  intros L F B.
  assert (LO : forall be, 0 < be < 16 -> 0 <= low_lane be <= 3 /\ Z.testbit be (low_lane be) = true /\
     forall j, 0 <= j < 4 -> Z.testbit be j = true -> low_lane be <= j).
  { intros be H. assert (H' : In be (map Z.of_nat (List.seq 0 16))) by (apply lane_enum; lia). cbn in H'.
    repeat destruct H' as [H'|H']; try contradiction; subst be; try lia; (split; [cbn; lia|split; [reflexivity|]]);
    intros j Hj; assert (J : j = 0 \/ j = 1 \/ j = 2 \/ j = 3) by lia; destruct J as [J|[J|[J|J]]]; subst j; cbn; try lia; discriminate. }
  assert (HI : forall be, 0 < be < 16 -> 0 <= high_lane be <= 3 /\ Z.testbit be (high_lane be) = true /\
     forall j, 0 <= j < 4 -> Z.testbit be j = true -> j <= high_lane be).
  { intros be H. assert (H' : In be (map Z.of_nat (List.seq 0 16))) by (apply lane_enum; lia). cbn in H'.
    repeat destruct H' as [H'|H']; try contradiction; subst be; try lia; (split; [cbn; lia|split; [reflexivity|]]);
    intros j Hj; assert (J : j = 0 \/ j = 1 \/ j = 2 \/ j = 3) by lia; destruct J as [J|[J|[J|J]]]; subst j; cbn; try lia; discriminate. }
  destruct (LO (first_be t) F) as (L1 & L2 & L3).
  set (lb := if tlen t =? 1 then first_be t else last_be t).
  assert (LB : 0 < lb < 16) by (unfold lb; destruct (Z.eqb_spec (tlen t) 1); [exact F|destruct B; [lia|assumption]]).
  destruct (HI lb LB) as (H1 & H2 & H3).
  unfold first_byte, last_byte. fold lb. split; [|split].
  - exists 0, (low_lane (first_be t)). split; [lia|]. split; [lia|]. split; [lia|]. exact L2.
  - exists (tlen t - 1), (high_lane lb). split; [lia|]. split; [lia|]. split; [lia|].
    unfold lane_enabled. unfold lb in *. destruct (Z.eqb_spec (tlen t) 1) as [E|E].
    + rewrite E. exact H2.
    + replace (tlen t - 1 =? 0) with false by lia. rewrite Z.eqb_refl. exact H2.
  - intros x (i & j & Hi & Hj & -> & E). unfold lane_enabled in E.
    destruct (Z.eqb_spec i 0) as [I|I].
    + subst i. specialize (L3 j Hj E). split; [lia|]. destruct (Z.eqb_spec (tlen t) 1) as [T|T]; [|lia].
      unfold lb in *. specialize (H3 j Hj E). lia.
    + split; [lia|]. destruct (Z.eqb_spec i (tlen t - 1)) as [K|K]; [|lia].
      unfold lb in *. destruct (Z.eqb_spec (tlen t) 1) as [T|T]; [lia|]. specialize (H3 j Hj E). lia.
Qed.

(** * The completers answer reads *)
Lemma completions_answer m cid t mps rcb split_all : read_request t -> 0 <= last_be t < 16 -> 0 <= mps -> rcb = 64 \/ rcb = 128 ->
  good_split rcb (split_limit mps rcb split_all) (first_byte t) (last_byte t - first_byte t + 1) (read_mem m (address t) (4 * tlen t))
     (completions cid t mps rcb split_all (read_mem m (address t) (4 * tlen t)))
  /\ Forall (answers cid t) (completions cid t mps rcb split_all (read_mem m (address t) (4 * tlen t))).
Proof.
  intros R B Hm Hr. rewrite span_count, span_first by first [apply R | assumption].
  apply completions_good; try assumption. apply read_mem_length. destruct R; lia.
Qed.

Lemma good_split_data rcb limit a n d cs : good_split rcb limit a n d cs -> concat (map data cs) = d.
Proof.
  induction 1; cbn [map concat]; subst; [apply app_nil_r|]. f_equal; assumption.
Qed.

Lemma bus_mem_read r base a n : read_mem (rg_mem r) (a - base) n = read_mem (bus_mem r base) a n.
Proof. unfold read_mem, bus_mem. apply map_ext. intros i. f_equal. lia. Qed.

Lemma ep_mem_read_ok cid mps r base t : page_safe base (rg_size r) ->
  1 <= tlen t -> address t mod 4096 + 4 * tlen t <= 4096 ->
  base <= address t -> address t + 4 * tlen t <= base + rg_size r ->
  ep_mem_read cid mps (Some (r, address t - base)) t =
  completions cid t mps 128 false (read_mem (bus_mem r base) (address t) (4 * tlen t)).
Proof.
  intros Hb Hl Hp H1 H2. unfold ep_mem_read. rewrite land_4095.
  replace (_ >? _) with false.
  2:{ symmetry. destruct Hb as [[q ->]|Hb]; lia. }
  f_equal. unfold read_region. rewrite Z.min_l by lia. rewrite bus_mem_read. f_equal. lia.
Qed.

Lemma rc_mem_read_ok c h t : h_find h (address t) (4 * tlen t) = true -> h_access h (address t) (4 * tlen t) = true ->
  address t mod 4096 + 4 * tlen t <= 4096 ->
  rc_mem_read c h t =
  completions id0 t (rc_mps c) (if rc_rcb128 c then 128 else 64) (rc_split_all c) (read_mem (h_mem h) (address t) (4 * tlen t)).
Proof.
  intros Hf Ha Hp. unfold rc_mem_read. rewrite (Z.mul_comm (tlen t) 4), Hf, Ha, land_4095. cbn [negb].
  replace (_ >? _) with false by lia. reflexivity.
Qed.

(** * End to end reads *)
Lemma request_kind t32 t64 lim t : request_ok t32 t64 lim t -> fmt_type t = Ok t32 \/ fmt_type t = Ok t64.
Proof. intros [_ _ _ _ T _]. rewrite T. destruct (_ <? _); auto. Qed.

Lemma set_addr_be_range addr k t : 1 <= k ->
  0 <= first_be (snd (set_addr_be addr k t)) < 16 /\ 0 <= last_be (snd (set_addr_be addr k t)) < 16.
Proof.
  intros H. destruct (set_addr_be_image addr k t H) as [_ _ _ UB _]. set (u := snd _) in *. clearbody u.
  destruct (mod4_cases addr) as [M|[M|[M|M]]], (mod4_cases (addr + k - 1)) as [N|[N|[N|N]]];
  rewrite M, N in UB; cbn in UB; destruct (tlen u =? 1); pose proof (f_equal fst UB) as E1;
  pose proof (f_equal snd UB) as E2; cbn in E1, E2; rewrite E1, E2; lia.
Qed.

Lemma read_join_all_ok c m incoming : 0 <= rq_mrrs c -> forall fuel addr rem i acc, 0 <= rem -> rem <= Z.of_nat fuel ->
  (forall j t, In t (map snd (read_split fuel c false addr rem)) -> exists l tl, incoming j t = l ++ tl /\ good_answer m t l) ->
  read_join_all incoming i (read_split fuel c false addr rem) acc = Ok (acc ++ read_mem m addr rem).
Proof.
  intros Hm. induction fuel as [|f IH]; intros addr rem i acc H0 Hf A.
  - assert (rem = 0) by lia. subst rem. cbn. rewrite app_nil_r. reflexivity.
  - pose proof (proj2 (read_split_ok c Hm (S f) addr rem H0 Hf)) as RO.
    cbn [read_split] in *. destruct (0 <? rem) eqn:E; [|assert (rem = 0) by lia; subst rem; cbn; rewrite app_nil_r; reflexivity].
    destruct (read_len_spec (rq_mrrs c) addr rem Hm ltac:(lia)) as (K1 & K2 & K3).
    set (k := read_len (rq_mrrs c) addr rem) in *.
    set (r0 := new_mem_req c addr MEM_READ MEM_READ_64) in *.
    set (u := snd (set_addr_be addr k r0)) in *.
    apply Forall_inv in RO. rename RO into Hu. cbn [snd] in Hu. destruct Hu as [Hu _].
    cbn [map snd] in A. 
    destruct (A i u (or_introl eq_refl)) as (l & tl & Il & [[rcb [lim [Hr G]]] [cid [tg F]]]).
    cbn [read_join_all]. unfold nonposted. rewrite Il.
    replace (is_mem_read u) with true.
    2:{ unfold is_mem_read. destruct (request_kind _ _ _ _ Hu) as [-> | ->]; reflexivity. }
    rewrite (collect_good _ _ _ _ _ _ _ _ G F Hr).
    destruct (set_addr_be_image addr k r0 ltac:(lia)) as [_ UA UL UB _]. fold u in UA, UL, UB.
    destruct (set_addr_be_getters addr k r0 ltac:(lia)) as [UF UC]. fold u in UF, UC.
    pose proof (set_addr_be_range addr k r0 ltac:(lia)) as FB. fold u in FB.
    rewrite span_count, UC in G by apply FB. rewrite span_first, UF, UA in G by apply FB.
    replace (4 * (addr / 4) + addr mod 4) with addr in G by lia.
    destruct (read_join_good _ _ _ _ k _ _ _ _ G F Hr 0 acc [] ltac:(lia) ltac:(lia)) as [R _].
    rewrite app_nil_r in R. rewrite R. cbn [bind].
    rewrite IH; [|lia|lia|intros j t It; apply A; right; exact It].
    rewrite <- app_assoc. do 2 f_equal. rewrite read_mem_slice by (rewrite ?UL; lia).
    replace (4 * (addr / 4) + addr mod 4) with addr by lia. replace (addr mod 4 + k - addr mod 4) with k by lia.
    rewrite <- read_mem_app by lia. f_equal. lia.
Qed.

Lemma mem_read_e2e c m incoming addr n : 0 <= rq_mrrs c -> rq_bus_master c = true -> 1 <= n ->
  (forall j t, In t (map snd (read_ops c addr n)) -> exists l tl, incoming j t = l ++ tl /\ good_answer m t l) ->
  mem_read c incoming addr n = Ok (read_mem m addr n).
Proof.
  intros Hm Hb Hn A. unfold mem_read. rewrite Hb. cbn [negb]. unfold read_ops in *.
  replace (n <=? 0) with false in * by lia. rewrite (read_join_all_ok c m); try assumption; try lia. cbn [bind app].
  f_equal. apply firstn_all2. rewrite read_mem_len. lia.
Qed.

(** A zero-length read. *)
Lemma zero_read_req c addr : read_ops c addr 0 =
  [(1, set_first_be 0 (snd (set_addr_be addr 1 (new_mem_req c addr MEM_READ MEM_READ_64))))] \/ rq_mrrs c < 0.
Proof.
  destruct (Z.leb_spec 0 (rq_mrrs c)) as [H|H]; [left|right; exact H].
  unfold read_ops. cbv zeta. change (0 <=? 0) with true. cbn match. change (Z.to_nat 1) with 1%nat. cbn [read_split].
  change (0 <? 1) with true. cbn match.
  destruct (read_len_spec (rq_mrrs c) addr 1 H ltac:(lia)) as (K & _). cbv zeta in K.
  replace (read_len (rq_mrrs c) addr 1) with 1 by lia. reflexivity.
Qed.
Lemma mem_read_zero c m incoming addr : 0 <= rq_mrrs c -> rq_bus_master c = true ->
  (forall j t, In t (map snd (read_ops c addr 0)) -> exists l tl, incoming j t = l ++ tl /\ good_answer m t l) ->
  mem_read c incoming addr 0 = Ok [].
Proof.
  intros Hm Hb A. unfold mem_read. rewrite Hb. cbn [negb]. change (0 <=? 0) with true. cbn match.
  destruct (zero_read_req c addr) as [E|E]; [|lia]. rewrite E in *. cbn [map snd] in A.
  set (u0 := new_mem_req c addr MEM_READ MEM_READ_64) in *.
  pose proof (set_addr_be_minimal addr 1 u0 ltac:(lia)) as [UA UL].
  destruct (set_addr_be_frame addr 1 u0) as (F1 & F2 & _).
  set (v := snd (set_addr_be addr 1 u0)) in *.
  set (u := set_first_be 0 v) in *.
  destruct (A 0%nat u (or_introl eq_refl)) as (l & tl & Il & [[rcb [lim [Hr G]]] [cid [tg F]]]).
  assert (T : tlen u = 1) by (change (tlen u) with (tlen v); rewrite UL; lia).
  assert (FB : first_byte u = address u + 3) by reflexivity.
  assert (LB : last_byte u = address u + 3) by (unfold last_byte; rewrite T; change (first_be u) with 0; cbn; lia).
  assert (AL : address u mod 4 = 0) by (change (address u) with (address v); rewrite UA; lia).
  rewrite FB, LB, T in G. cbn [read_join_all]. unfold nonposted. rewrite Il.
  replace (is_mem_read u) with true.
  2:{ unfold is_mem_read. replace (fmt_type u) with (fmt_type u0); [|unfold fmt_type; change (fmt u) with (fmt v); change (type_ u) with (type_ v); rewrite F1, F2; reflexivity].
      unfold u0. rewrite new_mem_req_type. destruct (addr >? 4294967295); reflexivity. }
  rewrite (collect_good _ _ _ _ _ _ _ _ G F Hr).
  destruct (read_join_good _ _ _ _ 1 _ _ _ _ G F Hr 0 [] [] ltac:(lia) ltac:(lia)) as [R _].
  rewrite app_nil_r in R. rewrite R. reflexivity.
Qed.

(** All requests of an access stay within the DWORDs it touches. *)
Lemma read_split_range c z : 0 <= rq_mrrs c -> forall fuel addr rem, Forall (fun kt => 
    4 * (addr / 4) <= address (snd kt) /\ address (snd kt) + 4 * tlen (snd kt) <= 4 * ((addr + rem + 3) / 4) /\ 1 <= tlen (snd kt)
    /\ address (snd kt) mod 4 = 0 /\ 0 <= first_be (snd kt) < 16 /\ 0 <= last_be (snd kt) < 16 
    /\ address (snd kt) mod 4096 + 4 * tlen (snd kt) <= 4096)
  (read_split fuel c z addr rem).
Proof.
  intros Hm. induction fuel as [|f IH]; intros addr rem; [constructor|]. cbn [read_split].
  destruct (0 <? rem) eqn:E; [|constructor].
  destruct (read_len_spec (rq_mrrs c) addr rem Hm ltac:(lia)) as (K1 & K2 & K3).
  set (k := read_len (rq_mrrs c) addr rem) in *.
  set (r0 := new_mem_req c addr MEM_READ MEM_READ_64) in *.
  pose proof (set_addr_be_minimal addr k r0 ltac:(lia)) as [UA UL].
  pose proof (set_addr_be_range addr k r0 ltac:(lia)) as [FB LB].
  set (v := snd (set_addr_be addr k r0)) in *.
  constructor.
  - cbn [snd]. destruct z.
    + change (address (set_first_be 0 v)) with (address v). change (tlen (set_first_be 0 v)) with (tlen v).
      change (first_be (set_first_be 0 v)) with 0. change (last_be (set_first_be 0 v)) with (last_be v). rewrite UA, UL. lia.
    + rewrite UA, UL. lia.
  - specialize (IH (addr + k) (rem - k)). revert IH. apply Forall_impl. intros [a t] H. cbn [snd] in *. lia.
Qed.
Lemma read_ops_range c addr n t : 0 <= rq_mrrs c -> In t (map snd (read_ops c addr n)) ->
  4 * (addr / 4) <= address t /\ address t + 4 * tlen t <= 4 * ((addr + Z.max n 1 + 3) / 4) /\ 1 <= tlen t
    /\ address t mod 4 = 0 /\ 0 <= first_be t < 16 /\ 0 <= last_be t < 16 /\ address t mod 4096 + 4 * tlen t <= 4096.
Proof.
  intros Hm H. apply in_map_iff in H. destruct H as ([k u] & <- & I). unfold read_ops in I. cbv zeta in I.
  pose proof (proj1 (Forall_forall _ _) (read_split_range c (n <=? 0) Hm (Z.to_nat (if n <=? 0 then 1 else n)) addr (if n <=? 0 then 1 else n)) _ I) as G.
  cbv beta in G. destruct (n <=? 0) eqn:E; [replace (Z.max n 1) with 1 by lia|replace (Z.max n 1) with n by lia]; exact G.
Qed.

(** The root complex answers. *)
Lemma rc_good_answer rcc h t tg : 0 <= rc_mps rcc -> 1 <= tlen t -> address t mod 4 = 0 -> 0 <= first_be t < 16 -> 0 <= last_be t < 16 ->
  address t mod 4096 + 4 * tlen t <= 4096 ->
  h_find h (address t) (4 * tlen t) = true -> h_access h (address t) (4 * tlen t) = true ->
  good_answer (h_mem h) t (rc_mem_read rcc h (set_tag tg t)).
Proof.
  intros Hm H1 H2 H3 H4 H5 H6 H7. rewrite rc_mem_read_ok by assumption.
  destruct (completions_answer (h_mem h) id0 (set_tag tg t) (rc_mps rcc) (if rc_rcb128 rcc then 128 else 64) (rc_split_all rcc)) as [G F];
   [split; assumption|assumption|assumption|destruct (rc_rcb128 rcc); auto|].
  split.
  - exists (if rc_rcb128 rcc then 128 else 64). eexists. split; [|exact G].
    destruct (rc_rcb128 rcc); [exists 32|exists 16]; reflexivity.
  - exists id0, tg. exact F.
Qed.
Lemma ep_good_answer cid mps r base t tg : 0 <= mps -> 1 <= tlen t -> address t mod 4 = 0 -> 0 <= first_be t < 16 -> 0 <= last_be t < 16 ->
  address t mod 4096 + 4 * tlen t <= 4096 ->
  page_safe base (rg_size r) ->
  base <= address t -> address t + 4 * tlen t <= base + rg_size r ->
  good_answer (bus_mem r base) t (ep_mem_read cid mps (Some (r, address t - base)) (set_tag tg t)).
Proof.
  intros Hm H1 H2 H3 H4 H5 H6 H7 H8.
  pose proof (ep_mem_read_ok cid mps r base (set_tag tg t) H6 H1 H5 H7 H8) as E.
  change (address (set_tag tg t)) with (address t) in E. rewrite E.
  destruct (completions_answer (bus_mem r base) cid (set_tag tg t) mps 128 false) as [G F]; [split; assumption|assumption|assumption|auto|].
  split.
  - exists 128. eexists. split; [|exact G]. exists 32. reflexivity.
  - exists cid, tg. exact F.
Qed.


Lemma mem_read_rc c rcc h tg tl addr n : 0 <= rq_mrrs c -> rq_bus_master c = true -> 0 <= rc_mps rcc -> 0 <= n ->
  (forall a k, hull_lo addr <= a -> a + k <= hull_hi addr n -> h_find h a k = true /\ h_access h a k = true) ->
  mem_read c (fun j t => rc_mem_read rcc h (set_tag (tg j) t) ++ tl j) addr n = Ok (read_mem (h_mem h) addr n).
Proof.
  intros Hm Hb Hp Hn Hh.
  assert (A : forall j t, In t (map snd (read_ops c addr n)) -> exists l tl', 
     rc_mem_read rcc h (set_tag (tg j) t) ++ tl j = l ++ tl' /\ good_answer (h_mem h) t l).
  { intros j t I. destruct (read_ops_range c addr n t Hm I) as (R1 & R2 & R3 & R4 & R5 & R6 & R7).
    exists (rc_mem_read rcc h (set_tag (tg j) t)), (tl j). split; [reflexivity|].
    destruct (Hh (address t) (4 * tlen t) R1 R2). apply rc_good_answer; assumption. }
  destruct (Z.eq_dec n 0) as [->|N].
  - apply (mem_read_zero c (h_mem h)); assumption.
  - apply mem_read_e2e; try assumption. lia.
Qed.
Lemma mem_read_ep c cid mps r base tg tl addr n : 0 <= rq_mrrs c -> rq_bus_master c = true -> 0 <= mps -> 0 <= n ->
  page_safe base (rg_size r) ->
  base <= hull_lo addr -> hull_hi addr n <= base + rg_size r ->
  mem_read c (fun j t => ep_mem_read cid mps (Some (r, address t - base)) (set_tag (tg j) t) ++ tl j) addr n
  = Ok (read_mem (rg_mem r) (addr - base) n).
Proof.
  intros Hm Hb Hp Hn Hr H1 H2.
  assert (A : forall j t, In t (map snd (read_ops c addr n)) -> exists l tl', 
     ep_mem_read cid mps (Some (r, address t - base)) (set_tag (tg j) t) ++ tl j = l ++ tl' /\ good_answer (bus_mem r base) t l).
  { intros j t I. destruct (read_ops_range c addr n t Hm I) as (R1 & R2 & R3 & R4 & R5 & R6 & R7).
    exists (ep_mem_read cid mps (Some (r, address t - base)) (set_tag (tg j) t)), (tl j). split; [reflexivity|].
    unfold hull_lo, hull_hi in *. apply ep_good_answer; try assumption; lia. }
  rewrite bus_mem_read.
  destruct (Z.eq_dec n 0) as [->|N].
  - apply (mem_read_zero c (bus_mem r base)); assumption.
  - apply mem_read_e2e; try assumption. lia.
Qed.

(** * Whatever is received: a failed completion never yields data *)
Lemma collect_fail : forall inc total m acc, 
  Forall wf_cpl inc -> m < total ->
  (exists c, In c (collect true inc) /\ status c <> SC) ->
  exists e, read_join total m (collect true inc) acc = Err e.
Proof.
  induction inc as [|c r IH]; intros total m acc W Hm (x & I & S); [contradiction|].
  cbn [collect] in *. pose proof (Forall_inv W) as Wc. unfold wf_cpl in Wc. apply Forall_inv_tail in W.
  destruct (Z.eqb_spec (status c) SC) as [Es|Es]; cbn [negb] in *.
  2:{ cbn [read_join]. replace (m <? total) with true by lia. destruct (Z.eqb_spec (status c) SC); [contradiction|]. cbn. eauto. }
  assert (D : In x [c] -> False).
  { intros [->|[]]. contradiction. }
  destruct (Z.leb_spec (byte_count c) (tlen c * 4 - Z.land (lower_address c) 3)) as [B|B]; [exfalso; exact (D I)|].
  assert (T : In x (c :: collect true r) -> exists e, read_join total m (c :: collect true r) acc = Err e).
  { intros [->|I']; [contradiction|]. cbn [read_join]. replace (m <? total) with true by lia.
    rewrite Es. change (negb (SC =? SC)) with false. cbn match.
    destruct (negb (byte_count c + 3 + _ >=? _)); [eauto|].
    destruct (Z.eqb_spec (byte_count c) (Z.max (total - m) 1)) as [Ec|Ec]; cbn [negb]; [|eauto].
    apply IH; [exact W|lia|eauto]. }
  destruct (fmt_type c) as [ty|e]; [destruct ty; try (exfalso; exact (D I)); apply T; exact I|apply T; exact I].
Qed.
Lemma read_join_all_fail incoming : forall ops i acc j k t,
  nth_error ops j = Some (k, t) -> 0 < k -> is_mem_read t = true ->
  Forall wf_cpl (incoming (i + j)%nat t) -> 
  (exists c, In c (nonposted t (incoming (i + j)%nat t)) /\ status c <> SC) ->
  exists e, read_join_all incoming i ops acc = Err e.
Proof.
  induction ops as [|[k0 t0] ops IH]; intros i acc j k t N Hk Ht W NS; [destruct j; discriminate|].
  cbn [read_join_all]. destruct j as [|j]; cbn [nth_error] in N.
  - injection N as -> ->. rewrite Nat.add_0_r in *. unfold nonposted in *. rewrite Ht in *.
    destruct (collect_fail _ k 0 acc W ltac:(lia) NS) as [e ->]. cbn. eauto.
  - destruct (read_join k0 0 _ acc) as [a|e]; cbn [bind]; [|eauto].
    apply (IH (S i) a j k t); try assumption; replace (S i + j)%nat with (i + S j)%nat by lia; assumption.
Qed.
Lemma read_split_pos c z : 0 <= rq_mrrs c -> forall fuel addr rem, 
  Forall (fun kt => 0 < fst kt /\ is_mem_read (snd kt) = true) (read_split fuel c z addr rem).
Proof.
  intros Hm. induction fuel as [|f IH]; intros addr rem; [constructor|]. cbn [read_split].
  destruct (0 <? rem) eqn:E; [|constructor].
  destruct (read_len_spec (rq_mrrs c) addr rem Hm ltac:(lia)) as (K1 & K2 & K3).
  set (k := read_len (rq_mrrs c) addr rem) in *.
  set (r0 := new_mem_req c addr MEM_READ MEM_READ_64).
  constructor; [|apply IH]. cbn [fst snd]. split; [lia|].
  destruct (set_addr_be_frame addr k r0) as (F1 & F2 & _). set (v := snd (set_addr_be addr k r0)) in *.
  assert (T : fmt_type (if z then set_first_be 0 v else v) = fmt_type r0).
  { unfold fmt_type. destruct z; [change (fmt (set_first_be 0 v)) with (fmt v); change (type_ (set_first_be 0 v)) with (type_ v)|]; rewrite F1, F2; reflexivity. }
  unfold is_mem_read. rewrite T. unfold r0. rewrite new_mem_req_type. destruct (addr >? 4294967295); reflexivity.
Qed.
Lemma mem_read_fail c incoming addr n j k t : 0 <= rq_mrrs c ->
  nth_error (read_ops c addr n) j = Some (k, t) -> Forall wf_cpl (incoming j t) ->
  (exists x, In x (nonposted t (incoming j t)) /\ status x <> SC) ->
  exists e, mem_read c incoming addr n = Err e.
Proof.
  intros Hm N W S. unfold mem_read. destruct (rq_bus_master c); cbn [negb]; [|eauto].
  assert (P : 0 < k /\ is_mem_read t = true).
  { apply nth_error_In in N. unfold read_ops in N. cbv zeta in N.
    exact (proj1 (Forall_forall _ _) (read_split_pos c _ Hm _ _ _) _ N). }
  destruct (read_join_all_fail incoming (read_ops c addr n) 0 [] j k t N (proj1 P) (proj2 P) W S) as [e ->]. cbn. eauto.
Qed.

(** The number of bytes returned. *)
Lemma read_join_len total : forall cs m acc d, Forall wf_cpl cs -> Forall (fun c => 1 <= tlen c) cs -> m <= total ->
  read_join total m cs acc = Ok d -> zlen d = zlen acc + (total - m).
Proof.
  induction cs as [|c r IH]; intros m acc d W L Hm H; cbn [read_join] in H.
  - destruct (Z.ltb_spec m total); [discriminate|]. apply Ok_inj in H. subst. lia.
  - destruct (Z.ltb_spec m total) as [Hl|Hl]; [|apply Ok_inj in H; subst; lia].
    destruct (negb (status c =? SC)); [discriminate|]. destruct (negb (_ >=? _)); [discriminate|].
    destruct (Z.eqb_spec (byte_count c) (Z.max (total - m) 1)) as [B|B]; cbn [negb] in H; [|discriminate].
    pose proof (Forall_inv W) as Wc. unfold wf_cpl in Wc. pose proof (Forall_inv L) as Lc. cbv beta in Lc.
    rewrite land_3 in H. set (o := lower_address c mod 4) in *. assert (0 <= o < 4) by (unfold o; lia).
    destruct (Z.leb_spec (m + (zlen (data c) - o)) total) as [G|G].
    + apply IH in H; [|apply Forall_inv_tail in W; exact W|apply Forall_inv_tail in L; exact L|exact G].
      rewrite H, zlen_app. rewrite (slice_over o _ (zlen (data c))) by lia. rewrite zlen_slice by lia. lia.
    + destruct r as [|y r]; cbn [read_join] in H; replace (_ <? total) with false in H by lia; apply Ok_inj in H; subst d;
      rewrite zlen_app, zlen_slice by lia; lia.
Qed.
Lemma collect_incl b : forall inc x, In x (collect b inc) -> In x inc.
Proof.
  induction inc as [|c r IH]; intros x I; [exact I|]. cbn [collect] in I.
  destruct (negb _); [destruct I as [I|[]]; left; exact I|]. destruct b; [|destruct I as [I|[]]; left; exact I].
  destruct (_ <=? _); [destruct I as [I|[]]; left; exact I|].
  assert (G : In x (c :: collect true r) -> In x (c :: r)) by (intros [J|J]; [left; exact J|right; apply IH; exact J]).
  destruct (fmt_type c) as [ty|e]; [destruct ty|]; try (apply G; exact I); destruct I as [I|[]]; left; exact I.
Qed.
Fixpoint sum_len (ops : list (Z * tlp)) : Z := match ops with [] => 0 | (k, _) :: r => k + sum_len r end.
Lemma read_join_all_len incoming : forall ops i acc d,
  (forall j t, Forall wf_cpl (incoming j t) /\ Forall (fun c => 1 <= tlen c) (incoming j t)) ->
  Forall (fun kt => 0 < fst kt) ops ->
  read_join_all incoming i ops acc = Ok d -> zlen d = zlen acc + sum_len ops.
Proof.
  induction ops as [|[k t] ops IH]; intros i acc d W P H; cbn [read_join_all sum_len] in *.
  - apply Ok_inj in H. subst. lia.
  - destruct (read_join k 0 _ acc) as [a|e] eqn:E; cbn [bind] in H; [|discriminate].
    pose proof (Forall_inv P) as Pk. cbn in Pk. apply IH in H; [|exact W|apply Forall_inv_tail in P; exact P].
    apply read_join_len in E; [lia| | |lia]; apply Forall_forall; intros x I; apply collect_incl in I; destruct (W i t) as [W1 W2].
    + apply (proj1 (Forall_forall _ _) W1); exact I.
    + apply (proj1 (Forall_forall _ _) W2 x I).
Qed.
Lemma read_split_sum c z : 0 <= rq_mrrs c -> forall fuel addr rem, 0 <= rem <= Z.of_nat fuel -> sum_len (read_split fuel c z addr rem) = rem.
Proof.
  intros Hm. induction fuel as [|f IH]; intros addr rem H; [cbn; lia|]. cbn [read_split].
  destruct (0 <? rem) eqn:E; [|cbn; lia].
  destruct (read_len_spec (rq_mrrs c) addr rem Hm ltac:(lia)) as (K1 & K2 & K3).
  cbn [sum_len]. rewrite IH; lia.
Qed.
Lemma mem_read_length c incoming addr n d : 0 <= rq_mrrs c -> 0 <= n ->
  (forall j t, Forall wf_cpl (incoming j t) /\ Forall (fun c => 1 <= tlen c) (incoming j t)) ->
  mem_read c incoming addr n = Ok d -> zlen d = n.
Proof.
  intros Hm Hn W H. unfold mem_read in H. destruct (rq_bus_master c); cbn [negb] in H; [|discriminate].
  destruct (read_join_all _ _ _ _) as [a|e] eqn:E; cbn [bind] in H; [|discriminate].
  destruct (n <=? 0) eqn:N; apply Ok_inj in H; subst d; [cbn; lia|].
  apply read_join_all_len in E; [|exact W|].
  - unfold read_ops in E. cbv zeta in E. rewrite N, read_split_sum in E by lia. rewrite zlen_nil in E. apply zlen_firstn. lia.
  - unfold read_ops. cbv zeta. rewrite N. eapply Forall_impl; [|apply read_split_pos; exact Hm]. cbv beta. intros a0 [P _]. exact P.
Qed.

(** The completers, in the form of C11. *)
Lemma ep_completions cid mps r base t : read_request t -> 0 <= last_be t < 16 -> 0 <= mps ->
  page_safe base (rg_size r) -> address t mod 4096 + 4 * tlen t <= 4096 ->
  base <= address t -> address t + 4 * tlen t <= base + rg_size r ->
  let cs := ep_mem_read cid mps (Some (r, address t - base)) t in
  good_split 128 (128 * 2 ^ mps) (first_byte t) (last_byte t - first_byte t + 1)
    (read_mem (bus_mem r base) (address t) (4 * tlen t)) cs /\ Forall (answers cid t) cs.
Proof.
  intros R B Hm Hp H1 H2 H3. cbv zeta. rewrite ep_mem_read_ok by (try assumption; apply R).
  apply (completions_answer (bus_mem r base) cid t mps 128 false); auto.
Qed.
Lemma rc_completions c h t : read_request t -> 0 <= last_be t < 16 -> 0 <= rc_mps c ->
  address t mod 4096 + 4 * tlen t <= 4096 ->
  h_find h (address t) (4 * tlen t) = true -> h_access h (address t) (4 * tlen t) = true ->
  let rcb := if rc_rcb128 c then 128 else 64 in
  let cs := rc_mem_read c h t in
  good_split rcb (split_limit (rc_mps c) rcb (rc_split_all c)) (first_byte t) (last_byte t - first_byte t + 1)
    (read_mem (h_mem h) (address t) (4 * tlen t)) cs /\ Forall (answers id0 t) cs.
Proof.
  intros R B Hm Hp H1 H2. cbv zeta. rewrite rc_mem_read_ok by assumption.
  apply completions_answer; try assumption. destruct (rc_rcb128 c); auto.
Qed.
Lemma past_end : exists cid mps r t, read_request t /\ 8 + 4 * tlen t <= 4096 /\
  exists c, ep_mem_read cid mps (Some (r, 8)) t = [c] /\ status c = SC /\ byte_count c = 16 /\ zlen (data c) = 8.
Proof.
  exists id0, 0, (mkRegion 16 (fun x => x)), (set_last_be 15 (set_first_be 15 (set_tlen 4 (set_address 0x108 (set_fmt_type MEM_READ tlp0))))).
  split; [split; cbn; lia|]. split; [cbn; lia|]. eexists. split; [reflexivity|]. vm_compute. auto.
Qed.
Lemma zero_length_lower : exists cid mps r t c, read_request t /\ first_be t = 0 /\ tlen t = 1 /\
  ep_mem_read cid mps (Some (r, 0)) t = [c] /\ byte_count c = 1 /\ lower_address c mod 4 <> 0.
Proof.
  exists id0, 0, (mkRegion 16 (fun x => x)), (set_tlen 1 (set_address 0x100 (set_fmt_type MEM_READ tlp0))). eexists.
  split; [split; cbn; lia|]. split; [reflexivity|]. split; [reflexivity|]. split; [reflexivity|]. split; [reflexivity|]. vm_compute. discriminate.
Qed.
