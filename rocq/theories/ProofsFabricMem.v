(** Memory and I/O accesses across a tree that the host has set up. *)
From Verif Require Import Base BaseProofs SpecTlp SpecMem ModelUtils ModelTlp ModelAttrs ModelCapList ModelConfig ModelFunction ModelRegion ModelCompleter ModelRoute ModelEnum ModelAssign SpecBar SpecRoute
  SpecEnum SpecAssign ModelTree SpecTree ModelTreeUp SpecTreeUp ModelFabric SpecFabric ProofsTlp ProofsTlpBe ProofsMem ProofsMemE2e ProofsMemWrite ProofsIo ProofsUtils ProofsTreeAll ProofsFabric.

(** ** Requests *)
Lemma read_ops_pos c addr n : 0 <= rq_mrrs c -> 1 <= n -> Forall (fun kt => request_ok MEM_READ MEM_READ_64 (128 * 2 ^ rq_mrrs c) (snd kt) /\ requester_id (snd kt) = rq_id c) (read_ops c addr n).
Proof.
  intros Hm Hn. unfold read_ops. cbv zeta. replace (n <=? 0) with false by lia. destruct (read_split_ok c Hm (Z.to_nat n) addr n ltac:(lia) ltac:(lia)) as [_ F].
  eapply Forall_impl; [|exact F]. intros kt (A1 & A2 & _). auto.
Qed.
Lemma read_ops_ok c addr n t : 0 <= rq_mrrs c -> 0 <= n -> In t (map snd (read_ops c addr n)) -> request_ok MEM_READ MEM_READ_64 (128 * 2 ^ rq_mrrs c) t /\ requester_id t = rq_id c.
Proof.
  intros Hm Hn I. destruct (Z.eq_dec n 0) as [->|N].
  - pose proof (read_ops_pos c addr 1 Hm ltac:(lia)) as F. destruct (zero_read_req c addr) as [E|E]; [|lia]. rewrite E in I. cbn [map snd In] in I. destruct I as [<-|[]].
    revert F. unfold read_ops. cbv zeta. change (1 <=? 0) with false. cbn match. change (Z.to_nat 1) with 1%nat. cbn [read_split]. change (0 <? 1) with true. cbn match.
    destruct (read_len_spec (rq_mrrs c) addr 1 Hm ltac:(lia)) as (K & _). cbv zeta in K. replace (read_len (rq_mrrs c) addr 1) with 1 by lia. intros F. apply Forall_inv in F. cbn [snd] in F.
    destruct F as [[A1 A2 A3 A4 A5 A6] A7]. split; [split; assumption|exact A7].
  - apply in_map_iff in I. destruct I as (kt & <- & I). pose proof (read_ops_pos c addr n Hm ltac:(lia)) as F. rewrite Forall_forall in F. exact (F kt I).
Qed.
Definition write_ok (c : req_cfg) (lo hi : Z) (t : tlp) : Prop :=
  request_ok MEM_WRITE MEM_WRITE_64 (128 * 2 ^ rq_mps c) t /\ requester_id t = rq_id c /\ lo <= address t /\ address t + 4 * tlen t <= hi.
Lemma mem_writes c addr d : 0 <= rq_mps c -> d <> [] -> rq_bus_master c = true ->
  exists ts, mem_write c addr d = Ok ts /\ covers_write addr d ts /\ Forall (write_ok c (hull_lo addr) (hull_hi addr (zlen d))) ts.
Proof.
  intros Hm Hd Hb. destruct (mem_write_ok c addr d Hm Hd Hb) as (ts & E & C & F). exists ts. split; [exact E|]. split; [exact C|].
  assert (Hn : 1 <= zlen d) by (destruct d; [congruence|rewrite zlen_cons; pose proof (zlen_nonneg d); lia]).
  assert (G : Forall (fun t => hull_lo addr <= address t /\ address t + 4 * tlen t <= hull_hi addr (zlen d)) ts).
  { unfold mem_write in E. rewrite Hb in E. cbn [negb] in E. cbv zeta in E. apply Ok_inj in E. subst ts. replace (zlen d =? 0) with false by lia.
    unfold hull_lo, hull_hi. replace (Z.max (zlen d) 1) with (zlen d) by lia. apply write_split_range. exact Hm. }
  rewrite Forall_forall in *. intros t I. destruct (F t I) as (F1 & F2 & _), (G t I). split; [exact F1|]. auto.
Qed.
(** ** Completions *)
Lemma split_returns cid t rcb limit a n d cs : good_split rcb limit a n d cs -> Forall (SpecMem.answers cid t) cs -> limit <= 4096 -> Forall (returning (requester_id t)) cs.
Proof.
  intros G F L. pose proof (good_split_check cid t rcb limit a n d cs G F L) as K. rewrite Forall_forall in *. intros c I. split; [exact (K c I)|]. exists CPL_DATA. destruct (F c I) as [A1 _ _ A4 _ _ _]. split; [exact A1|].
  cbn [route_of]. rewrite A4. reflexivity.
Qed.
Lemma one_returns cid t c m u : SpecMem.answers cid t c -> good_io_answer m u c -> byte_count c = 4 -> returning (requester_id t) c.
Proof.
  intros [A1 _ _ A4 _ _ _] [_ L D] B. split.
  - apply (check_complete CPL_DATA); [exact A1|]. assert (Z4 : zlen (data c) = 4) by (rewrite D; reflexivity). split; try (intros H; cbn [In] in H; exfalso; intuition discriminate).
    + intros _. lia.
    + intros _. rewrite B, L. pose proof (Z.mod_pos_bound (lower_address c) 4 ltac:(lia)). lia.
  - exists CPL_DATA. split; [exact A1|]. cbn [route_of]. rewrite A4. reflexivity.
Qed.
Lemma done_returns t cid : returning (requester_id t) (set_byte_count 4 (create_completion t cid false SC)).
Proof. split; [reflexivity|]. exists CPL. split; reflexivity. Qed.
Lemma mem_route lim t32 t64 t : request_ok t32 t64 lim t -> (t32, t64) = (MEM_READ, MEM_READ_64) \/ (t32, t64) = (MEM_WRITE, MEM_WRITE_64) ->
  exists ty, fmt_type t = Ok ty /\ (ty = t32 \/ ty = t64) /\ route_of ty t = TAddr false (address t).
Proof.
  intros [_ _ _ _ T _] K. exists (if address t <? 2 ^ 32 then t32 else t64). split; [exact T|]. split; [destruct (_ <? _); auto|]. destruct K as [K|K]; injection K as -> ->; destruct (_ <? _); reflexivity.
Qed.

Section Up.
Context (m : Z) (h : hw) (z : net) (l : lims) (h' : hw) (b : pbus) (n : list adev) (l' : lims).
Hypothesis U : arranged m h z l h' b n l'.
Hypothesis Ti : tidy b.
Hypothesis Gr : forall k, (granule k | lim k l).
Hypothesis Ap : apart l l'.
Context (k : settings).

Section Bar.
Context (io : bool) (e : pfn) (a : alloc) (q : list nat) (g : fnc) (j : Z).
Hypothesis B : bar_at z n io e a q g j.
Lemma exchange_bar s t ty w : sender z s q -> tlp_check t = Ok true -> fmt_type t = Ok ty -> route_of ty t = TAddr io (address t) -> a_addr a <= address t < a_addr a + a_size a ->
  exchange z k w s t = ('(w, cs) <- serve k w (Stops g t) ;; cs <- back z (p_id e) s cs ;; Ok (w, cs)) /\ bar_of w g io t = Ok (Some (j, (w_bar w (p_id e) j, address t - a_addr a))).
Proof.
  intros Se C T R X. destruct (bar_go m h z l h' b n l' U Ti Gr Ap io e a q g j B s t ty Se C T R X) as [E Mb]. unfold exchange, bar_of. rewrite E, Mb. cbn [bind]. rewrite <- (ba_id _ _ _ _ _ _ _ _ B). split; reflexivity.
Qed.
Lemma back_bar s cs : sender z s q -> Forall (returning s) cs -> back z (p_id e) s cs = Ok cs.
Proof. rewrite <- (ba_id _ _ _ _ _ _ _ _ B). exact (bar_back m h z l h' b n l' U io e a q g j B s cs). Qed.
End Bar.

Section BarMem.
Context (e : pfn) (a : alloc) (q : list nat) (g : fnc) (j : Z).
Hypothesis B : bar_at z n false e a q g j.
Lemma read_bar s w lim tg t : sender z s q -> 0 <= s_mps k (p_id e) <= 5 -> rg_size (w_bar w (p_id e) j) = a_size a -> request_ok MEM_READ MEM_READ_64 lim t -> requester_id t = s -> 0 <= first_be t < 16 -> 0 <= last_be t < 16 ->
  a_addr a <= address t -> address t + 4 * tlen t <= a_addr a + a_size a ->
  exchange z k w s (set_tag tg t) = Ok (w, ep_mem_read (p_id e) (s_mps k (p_id e)) (Some (w_bar w (p_id e) j, address t - a_addr a)) (set_tag tg t)).
Proof.
  intros Se Hp Sz Ro Rs F1 F2 X1 X2. destruct (mem_route _ _ _ _ Ro (or_introl eq_refl)) as (ty & T & Ty & R). pose proof (request_page _ _ _ _ Ro) as Pg. pose proof Ro as [L A _ _ _ C].
  destruct (exchange_bar false e a q g j B s (set_tag tg t) ty w Se C T R ltac:(change (address (set_tag tg t)) with (address t); lia)) as [E Eb]. change (address (set_tag tg t)) with (address t) in Eb. rewrite E. clear E.
  assert (S : serve k w (Stops g (set_tag tg t)) = Ok (w, ep_mem_read (p_id e) (s_mps k (p_id e)) (Some (w_bar w (p_id e) j, address t - a_addr a)) (set_tag tg t))).
  { cbn [serve]. change (fmt_type (set_tag tg t)) with (fmt_type t). rewrite T, (ba_id _ _ _ _ _ _ _ _ B). cbn [bind]. destruct Ty as [-> | ->]; rewrite Eb; reflexivity. }
  rewrite S. cbn [bind]. destruct (bar_facts m h z l h' b n l' U false e a q g j B) as (_ & _ & _ & Ps). rewrite <- Sz in Ps, X2.
  destruct (ep_completions (p_id e) (s_mps k (p_id e)) (w_bar w (p_id e) j) (a_addr a) (set_tag tg t)) as [G1 G2]; try assumption; [split; assumption|lia|].
  rewrite (back_bar false e a q g j B); [reflexivity|exact Se|]. rewrite <- Rs. eapply (split_returns (p_id e) (set_tag tg t)); [exact G1|exact G2|].
  assert (2 ^ s_mps k (p_id e) <= 2 ^ 5) by (apply Z.pow_le_mono_r; lia). lia.
Qed.
Lemma mem_read_bar c w tg addr len : sender z (rq_id c) q -> 0 <= s_mps k (p_id e) <= 5 -> rg_size (w_bar w (p_id e) j) = a_size a -> 0 <= rq_mrrs c -> rq_bus_master c = true -> 0 <= len ->
  a_addr a <= hull_lo addr -> hull_hi addr len <= a_addr a + a_size a ->
  mem_read c (fun i t => arriving z k w (rq_id c) (set_tag (tg i) t)) addr len = Ok (read_mem (rg_mem (w_bar w (p_id e) j)) (addr - a_addr a) len).
Proof.
  intros Se Hp Sz Hm Hb Hn H1 H2. destruct (bar_facts m h z l h' b n l' U false e a q g j B) as (_ & _ & _ & Ps).
  assert (A : forall i t, In t (map snd (read_ops c addr len)) -> exists l0 tl, arriving z k w (rq_id c) (set_tag (tg i) t) = l0 ++ tl /\ good_answer (bus_mem (w_bar w (p_id e) j) (a_addr a)) t l0).
  { intros i t I. destruct (read_ops_range c addr len t Hm I) as (R1 & R2 & R3 & R4 & R5 & R6 & R7). destruct (read_ops_ok c addr len t Hm Hn I) as [Ro Rs]. unfold hull_lo, hull_hi in *.
    unfold arriving. rewrite (read_bar (rq_id c) w _ (tg i) t Se Hp Sz Ro Rs R5 R6) by lia. eexists. exists []. split; [symmetry; apply app_nil_r|]. apply ep_good_answer; try assumption; try lia. rewrite Sz. exact Ps. }
  rewrite bus_mem_read. destruct (Z.eq_dec len 0) as [->|N].
  - exact (mem_read_zero c _ _ addr Hm Hb A).
  - apply mem_read_e2e; try assumption. lia.
Qed.
Lemma write_bar s w lim tg t r : sender z s q -> request_ok MEM_WRITE MEM_WRITE_64 lim t -> a_addr a <= address t -> address t + 4 * tlen t <= a_addr a + a_size a ->
  ep_mem_write (Some (w_bar w (p_id e) j, address t - a_addr a)) t = Ok (Some r) -> exchange z k w s (set_tag tg t) = Ok (put_bar (p_id e) j r w, []).
Proof.
  intros Se Ro X1 X2 W. destruct (mem_route _ _ _ _ Ro (or_intror eq_refl)) as (ty & T & Ty & R). pose proof Ro as [L A _ _ _ C].
  destruct (exchange_bar false e a q g j B s (set_tag tg t) ty w Se C T R ltac:(change (address (set_tag tg t)) with (address t); lia)) as [E Eb]. change (address (set_tag tg t)) with (address t) in Eb. rewrite E. clear E.
  assert (S : serve k w (Stops g (set_tag tg t)) = Ok (put_bar (p_id e) j r w, [])).
  { cbn [serve]. change (fmt_type (set_tag tg t)) with (fmt_type t). rewrite T. cbn [bind].
    change (ep_mem_write (Some (w_bar w (p_id e) j, address t - a_addr a)) (set_tag tg t) = Ok (Some r)) in W.
    destruct Ty as [-> | ->]; rewrite Eb; cbn [bind option_map snd]; rewrite W; cbn [bind put_of]; rewrite (ba_id _ _ _ _ _ _ _ _ B); reflexivity. }
  rewrite S. reflexivity.
Qed.
Lemma put_there i0 j0 r w : w_bar (put_bar i0 j0 r w) i0 j0 = r.
Proof. cbn. replace (id_eqb i0 i0) with true by (symmetry; apply id_eqb_ok; reflexivity). rewrite Z.eqb_refl. reflexivity. Qed.
Lemma put_else i0 j0 r w i1 j1 : (i1, j1) <> (i0, j0) -> w_bar (put_bar i0 j0 r w) i1 j1 = w_bar w i1 j1.
Proof. intros N. cbn. destruct (id_eqb i1 i0) eqn:E1; [|reflexivity]. apply id_eqb_ok in E1. destruct (Z.eqb_spec j1 j0); [exfalso; apply N; congruence|reflexivity]. Qed.
Lemma writes_bar s lim tg : sender z s q -> forall ts i w r, ep_write_all (a_addr a) (w_bar w (p_id e) j) ts = Ok r -> Forall (request_ok MEM_WRITE MEM_WRITE_64 lim) ts ->
  Forall (fun t => a_addr a <= address t /\ address t + 4 * tlen t <= a_addr a + a_size a) ts ->
  exists w', exchanges z k w s tg i ts = Ok (w', map (fun _ => []) ts) /\ w_host w' = w_host w /\ w_bar w' (p_id e) j = r /\ forall i1 j1, (i1, j1) <> (p_id e, j) -> w_bar w' i1 j1 = w_bar w i1 j1.
Proof.
  intros Se. induction ts as [|t ts IH]; intros i w r E F X; cbn [ep_write_all] in E.
  - injection E as <-. exists w. auto.
  - destruct (ep_mem_write (Some (w_bar w (p_id e) j, address t - a_addr a)) t) as [[r1|]|] eqn:Er; try discriminate E. inversion F as [|? ? F1 F2]; subst. inversion X as [|? ? X1 X2]; subst. cbn [exchanges].
    rewrite (write_bar s w lim (tg i) t r1 Se F1 (proj1 X1) (proj2 X1) Er). cbn [bind].
    destruct (IH (S i) (put_bar (p_id e) j r1 w) r) as (w' & E' & H1 & H2 & H3); [rewrite put_there; exact E|exact F2|exact X2|]. rewrite E'. cbn [bind map]. exists w'. split; [reflexivity|]. split; [exact H1|]. split; [exact H2|].
    intros i1 j1 N. rewrite H3 by exact N. apply put_else. exact N.
Qed.
Lemma mem_write_bar c w tg addr d : sender z (rq_id c) q -> rg_size (w_bar w (p_id e) j) = a_size a -> 0 <= rq_mps c -> rq_bus_master c = true -> d <> [] ->
  a_addr a <= hull_lo addr -> hull_hi addr (zlen d) <= a_addr a + a_size a ->
  exists ts w', mem_write c addr d = Ok ts /\ exchanges z k w (rq_id c) tg 0 ts = Ok (w', map (fun _ => []) ts) /\ w_host w' = w_host w /\ rg_size (w_bar w' (p_id e) j) = a_size a /\
    (forall x, rg_mem (w_bar w' (p_id e) j) x = replaced (rg_mem (w_bar w (p_id e) j)) (addr - a_addr a) d x) /\ forall i1 j1, (i1, j1) <> (p_id e, j) -> w_bar w' i1 j1 = w_bar w i1 j1.
Proof.
  intros Se Sz Hm Hb Hd H1 H2. destruct (bar_facts m h z l h' b n l' U false e a q g j B) as (_ & _ & _ & Ps). destruct (mem_writes c addr d Hm Hd Hb) as (ts & E & C & F). exists ts.
  assert (F1 : Forall (request_ok MEM_WRITE MEM_WRITE_64 (128 * 2 ^ rq_mps c)) ts) by (eapply Forall_impl; [|exact F]; intros t (F1 & _); exact F1).
  assert (F2 : Forall (fun t => a_addr a <= address t /\ address t + 4 * tlen t <= a_addr a + a_size a) ts) by (eapply Forall_impl; [|exact F]; intros t (_ & _ & F2 & F3); lia).
  destruct (ep_writes_ok _ (a_addr a) ts addr d (w_bar w (p_id e) j) C F1 ltac:(rewrite Sz; exact F2) ltac:(rewrite Sz; exact Ps)) as (r & Er & Rs & Rm).
  destruct (writes_bar (rq_id c) _ tg Se ts 0%nat w r Er F1 F2) as (w' & E' & K1 & K2 & K3). exists w'. rewrite K2. split; [exact E|]. split; [exact E'|]. split; [exact K1|]. split; [congruence|]. split; [exact Rm|exact K3].
Qed.
End BarMem.
End Up.
