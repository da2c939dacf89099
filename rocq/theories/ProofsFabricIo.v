(** I/O accesses across a tree that the host has set up, and accesses of functions to the host. *)
From Verif Require Import Base BaseProofs SpecTlp SpecMem ModelUtils ModelTlp ModelAttrs ModelCapList ModelConfig ModelFunction ModelRegion ModelCompleter ModelRoute ModelEnum ModelAssign SpecBar SpecRoute
  SpecEnum SpecAssign ModelTree SpecTree ModelTreeUp SpecTreeUp ModelFabric SpecFabric ProofsTlp ProofsTlpBe ProofsMem ProofsMemE2e ProofsMemWrite ProofsIo ProofsUtils ProofsTreeAll ProofsFabric ProofsFabricMem.

Lemma io_route ty c t : io_req_ok ty c t -> ty = IO_READ \/ ty = IO_WRITE -> route_of ty t = TAddr true (address t).
Proof. intros _ [-> | ->]; reflexivity. Qed.
Lemma io_reads c addr len t : 1 <= len -> In t (map snd (io_read_split (Z.to_nat len) c false addr len)) -> io_req_ok IO_READ c t /\ hull_lo addr <= address t /\ address t + 4 <= hull_hi addr len.
Proof.
  intros Hn I. destruct (io_read_split_ok c (Z.to_nat len) addr len ltac:(lia)) as (_ & _ & _ & F). apply in_map_iff in I. destruct I as (kt & <- & I). rewrite Forall_forall in F. destruct (F kt I) as (A1 & A2 & A3).
  split; [exact A1|]. split; [exact A2|]. unfold hull_hi. replace (Z.max len 1) with len by lia. exact A3.
Qed.
Definition io_write_ok' (c : req_cfg) (lo hi : Z) (t : tlp) : Prop := io_req_ok IO_WRITE c t /\ zlen (data t) = 4 /\ lo <= address t /\ address t + 4 <= hi.
Lemma io_writes c addr d : d <> [] -> rq_bus_master c = true ->
  exists ts, io_write c addr d = Ok ts /\ covers_write addr d ts /\ Forall (io_write_ok' c (hull_lo addr) (hull_hi addr (zlen d))) ts.
Proof.
  intros Hd Hb. assert (Hn : 1 <= zlen d) by (destruct d; [congruence|rewrite zlen_cons; pose proof (zlen_nonneg d); lia]).
  unfold io_write. rewrite Hb. cbn [negb]. cbv zeta. replace (zlen d =? 0) with false by lia. destruct (io_write_split_ok c (length d) addr d ltac:(unfold zlen; lia)) as [C F]. eexists. split; [reflexivity|]. split; [exact C|].
  unfold hull_hi. replace (Z.max (zlen d) 1) with (zlen d) by lia. exact F.
Qed.
(** Every request is answered by one successful completion. *)
Lemma joined : forall ts i css, Forall (fun t => is_mem_read t = false) ts -> length css = length ts -> Forall (fun cs => exists c, cs = [c] /\ status c = 0) css ->
  forall pre, length pre = i -> io_write_join (fun j _ => nth j (pre ++ css) []) i ts = Ok tt.
Proof.
  induction ts as [|t ts IH]; intros i [|cs css] F L D pre Hp; try discriminate L; [reflexivity|]. inversion F as [|? ? F1 F2]; subst. inversion D as [|? ? (c & -> & Sc) D2]; subst. cbn [io_write_join]. rewrite app_nth2 by lia. rewrite Nat.sub_diag. cbn [nth].
  unfold nonposted. rewrite F1. cbn [collect]. rewrite Sc. change (negb (0 =? SC)) with false. cbn match. rewrite Sc. change (negb (0 =? SC)) with false. cbn match.
  specialize (IH (S (length pre)) css F2 ltac:(injection L; auto) D2 (pre ++ [[c]])). rewrite <- app_assoc in IH. apply IH. rewrite app_length. cbn. lia.
Qed.
Lemma not_mem_read c ts : Forall (fun t => io_req_ok IO_WRITE c t) ts -> Forall (fun t => is_mem_read t = false) ts.
Proof. apply Forall_impl. intros t (_ & _ & T & _). unfold is_mem_read. rewrite T. reflexivity. Qed.

Lemma rc_io_write_keeps h t cs h' : rc_io_write h t = Ok (cs, h') -> h_find h' = h_find h /\ h_access h' = h_access h.
Proof.
  assert (K : forall addr d runs h, h_find (snd (host_writes h addr d runs)) = h_find h /\ h_access (snd (host_writes h addr d runs)) = h_access h).
  { intros addr d. induction runs as [|[s e] l IH]; intros h0; cbn [host_writes]; [split; reflexivity|]. destruct (h_access h0 _ _); [|split; reflexivity]. destruct (IH (mkHost (h_find h0) (h_access h0) (write_mem (h_mem h0) (addr + s) (slice s e d)))) as [A B]. rewrite A, B. split; reflexivity. }
  unfold rc_io_write. destruct (negb _); [intros E; injection E as _ <-; split; reflexivity|]. destruct (py_assert _); cbn [bind]; [|discriminate].
  specialize (K (address t) (data t) (io_runs t) h). destruct (host_writes h (address t) (data t) (io_runs t)) as [ok h1]. destruct ok; intros E; injection E as _ <-; exact K.
Qed.

Section Up.
Context (m : Z) (h : hw) (z : net) (l : lims) (h' : hw) (b : pbus) (n : list adev) (l' : lims).
Hypothesis U : arranged m h z l h' b n l'.
Hypothesis Ti : tidy b.
Hypothesis Gr : forall k, (granule k | lim k l).
Hypothesis Ap : apart l l'.
Context (k : settings).

(** ** I/O BARs *)
Section BarIo.
Context (e : pfn) (a : alloc) (q : list nat) (g : fnc) (j : Z).
Hypothesis B : bar_at z n true e a q g j.
Lemma ioread_bar c w tg t : sender z (rq_id c) q -> rg_size (w_bar w (p_id e) j) = a_size a -> io_req_ok IO_READ c t -> a_addr a <= address t -> address t + 4 <= a_addr a + a_size a ->
  exists x, exchange z k w (rq_id c) (set_tag tg t) = Ok (w, [x]) /\ good_io_answer (bus_mem (w_bar w (p_id e) j) (a_addr a)) t x.
Proof.
  intros Se Sz (L & A & T & _ & Rs & C) X1 X2.
  destruct (exchange_bar m h z l h' b n l' U Ti Gr Ap k true e a q g j B (rq_id c) (set_tag tg t) IO_READ w Se C T eq_refl ltac:(change (address (set_tag tg t)) with (address t); lia)) as [E Eb].
  change (address (set_tag tg t)) with (address t) in Eb. rewrite E. clear E.
  destruct (ep_io_read_ok (p_id e) (w_bar w (p_id e) j) (a_addr a) t tg L X1 ltac:(lia)) as (x & Ex & G1 & G2). exists x. split; [|exact G1].
  assert (Bc : byte_count x = 4).
  { clear - Ex L. unfold ep_io_read in Ex. change (tlen (set_tag tg t)) with (tlen t) in Ex. rewrite L in Ex. cbn [py_assert Z.eqb Pos.eqb bind] in Ex. apply (f_equal (fun r => match r with Ok (y :: _) => byte_count y | _ => 0 end)) in Ex. symmetry in Ex. exact Ex. }
  assert (S : serve k w (Stops g (set_tag tg t)) = Ok (w, [x])).
  { cbn [serve]. change (fmt_type (set_tag tg t)) with (fmt_type t). rewrite T. cbn [bind]. rewrite Eb. cbn [bind option_map snd]. rewrite (ba_id _ _ _ _ _ _ _ _ B), Ex. reflexivity. }
  rewrite S. cbn [bind]. rewrite (back_bar m h z l h' b n l' U true e a q g j B); [reflexivity|exact Se|]. constructor; [|constructor]. rewrite <- Rs. exact (one_returns _ _ _ _ _ G2 G1 Bc).
Qed.
Lemma io_read_bar c w tg addr len : sender z (rq_id c) q -> rg_size (w_bar w (p_id e) j) = a_size a -> rq_bus_master c = true -> 1 <= len -> a_addr a <= hull_lo addr -> hull_hi addr len <= a_addr a + a_size a ->
  io_read c (fun i t => arriving z k w (rq_id c) (set_tag (tg i) t)) addr len = Ok (read_mem (rg_mem (w_bar w (p_id e) j)) (addr - a_addr a) len).
Proof.
  intros Se Sz Hb Hn H1 H2. rewrite bus_mem_read. apply io_read_e2e; try assumption. intros i t I. destruct (io_reads c addr len t Hn I) as (R & X1 & X2).
  destruct (ioread_bar c w (tg i) t Se Sz R ltac:(lia) ltac:(lia)) as (x & E & G). exists x, []. unfold arriving. rewrite E. auto.
Qed.
Lemma iowrite_bar c w tg t : sender z (rq_id c) q -> rg_size (w_bar w (p_id e) j) = a_size a -> io_req_ok IO_WRITE c t -> zlen (data t) = 4 -> a_addr a <= address t -> address t + 4 <= a_addr a + a_size a ->
  exists x r, exchange z k w (rq_id c) (set_tag tg t) = Ok (put_bar (p_id e) j r w, [x]) /\ status x = 0 /\ rg_size r = a_size a /\ forall y, rg_mem r y = masked_write (rg_mem (w_bar w (p_id e) j)) (address t - a_addr a) t y.
Proof.
  intros Se Sz (L & A & T & _ & Rs & C) D X1 X2.
  destruct (exchange_bar m h z l h' b n l' U Ti Gr Ap k true e a q g j B (rq_id c) (set_tag tg t) IO_WRITE w Se C T eq_refl ltac:(change (address (set_tag tg t)) with (address t); lia)) as [E Eb].
  change (address (set_tag tg t)) with (address t) in Eb. rewrite E. clear E.
  destruct (ep_io_write_ok (p_id e) (w_bar w (p_id e) j) (address t - a_addr a) (set_tag tg t) L D ltac:(lia)) as (r & Er & Rz & Rm).
  exists (set_byte_count 4 (create_completion (set_tag tg t) (p_id e) false SC)), r.
  assert (S : serve k w (Stops g (set_tag tg t)) = Ok (put_bar (p_id e) j r w, [set_byte_count 4 (create_completion (set_tag tg t) (p_id e) false SC)])).
  { cbn [serve]. change (fmt_type (set_tag tg t)) with (fmt_type t). rewrite T. cbn [bind]. rewrite Eb. cbn [bind option_map snd]. rewrite (ba_id _ _ _ _ _ _ _ _ B), Er. cbn [bind put_of]. rewrite (ba_id _ _ _ _ _ _ _ _ B). reflexivity. }
  rewrite S. cbn [bind]. rewrite (back_bar m h z l h' b n l' U true e a q g j B); [|exact Se|constructor; [|constructor]; rewrite <- Rs; exact (done_returns (set_tag tg t) (p_id e))].
  split; [reflexivity|]. split; [reflexivity|]. split; [congruence|exact Rm].
Qed.
Lemma iowrites_bar c tg : sender z (rq_id c) q -> forall ts addr d, covers_write addr d ts -> forall i w, rg_size (w_bar w (p_id e) j) = a_size a -> Forall (io_write_ok' c (a_addr a) (a_addr a + a_size a)) ts ->
  exists w' css, exchanges z k w (rq_id c) tg i ts = Ok (w', css) /\ length css = length ts /\ Forall (fun cs => exists x, cs = [x] /\ status x = 0) css /\ w_host w' = w_host w /\ rg_size (w_bar w' (p_id e) j) = a_size a /\
    (forall x, rg_mem (w_bar w' (p_id e) j) x = replaced (rg_mem (w_bar w (p_id e) j)) (addr - a_addr a) d x) /\ forall i1 j1, (i1, j1) <> (p_id e, j) -> w_bar w' i1 j1 = w_bar w i1 j1.
Proof.
  intros Se ts addr d C. induction C as [addr|addr d d' t ts Hd Ha He C IH]; intros i w Sz F.
  - exists w, []. split; [reflexivity|]. split; [reflexivity|]. split; [constructor|]. split; [reflexivity|]. split; [exact Sz|]. split; [|auto]. intros x. rewrite replaced_nil. reflexivity.
  - inversion F as [|? ? (F1 & F2 & F3 & F4) F5]; subst. cbn [exchanges]. destruct (iowrite_bar c w (tg i) t Se Sz F1 F2 F3 F4) as (x & r & E & Sx & Rz & Rm). rewrite E. cbn [bind].
    destruct (IH (S i) (put_bar (p_id e) j r w)) as (w' & css & E' & K1 & K2 & K3 & K4 & K5 & K6); [rewrite put_there; exact Rz|exact F5|]. rewrite E'. cbn [bind]. exists w', ([x] :: css).
    split; [reflexivity|]. split; [cbn [length]; congruence|]. split; [constructor; eauto|]. split; [exact K3|]. split; [exact K4|]. split.
    + intros y. rewrite K5, put_there, <- replaced_app. replace (addr - a_addr a + zlen (enabled_data t)) with (addr + zlen (enabled_data t) - a_addr a) by lia. apply replaced_ext. intros v. rewrite Rm.
      destruct F1 as (L & A & _). apply masked_replaced; try assumption; try lia. reflexivity.
    + intros i1 j1 N. rewrite K6 by exact N. apply put_else. exact N.
Qed.
Lemma io_write_bar c w tg addr d : sender z (rq_id c) q -> rg_size (w_bar w (p_id e) j) = a_size a -> rq_bus_master c = true -> d <> [] -> a_addr a <= hull_lo addr -> hull_hi addr (zlen d) <= a_addr a + a_size a ->
  exists ts w' css, io_write c addr d = Ok ts /\ exchanges z k w (rq_id c) tg 0 ts = Ok (w', css) /\ io_write_join (fun i _ => nth i css []) 0 ts = Ok tt /\ w_host w' = w_host w /\ rg_size (w_bar w' (p_id e) j) = a_size a /\
    (forall x, rg_mem (w_bar w' (p_id e) j) x = replaced (rg_mem (w_bar w (p_id e) j)) (addr - a_addr a) d x) /\ forall i1 j1, (i1, j1) <> (p_id e, j) -> w_bar w' i1 j1 = w_bar w i1 j1.
Proof.
  intros Se Sz Hb Hd H1 H2. destruct (io_writes c addr d Hd Hb) as (ts & E & C & F). exists ts.
  assert (F' : Forall (io_write_ok' c (a_addr a) (a_addr a + a_size a)) ts) by (eapply Forall_impl; [|exact F]; intros t (A1 & A2 & A3 & A4); split; [exact A1|]; split; [exact A2|]; lia).
  destruct (iowrites_bar c tg Se ts addr d C 0%nat w Sz F') as (w' & css & E' & K1 & K2 & K). exists w', css. split; [exact E|]. split; [exact E'|]. split; [|exact K].
  apply (joined ts 0%nat css) with (pre := []); auto. apply (not_mem_read c). eapply Forall_impl; [|exact F]. intros t (A1 & _). exact A1.
Qed.
End BarIo.

(** ** The host *)
Section Host.
Context (p : list nat) (u : net).
Hypothesis Np : p <> [].
Hypothesis P : net_at z p = Some u.
Lemma exchange_host t ty io w : tlp_check t = Ok true -> fmt_type t = Ok ty -> route_of ty t = TAddr io (address t) -> 0 <= address t < 2 ^ 64 ->
  (forall e a, In (e, a) (flat_map bar_allocs n) -> decodes io (address t) a) -> (forall k, io_kind k = io -> ~ lim k l <= address t <= lim k l') ->
  exchange z k w (f_id (net_fn u)) t = ('(w, cs) <- serve k w (Passes t) ;; cs <- back z id0 (f_id (net_fn u)) cs ;; Ok (w, cs)).
Proof. intros C T R X D N. unfold exchange. rewrite (host_go m h z l h' b n l' U Ti Gr Ap p u Np P t ty io C T R X D N). reflexivity. Qed.
Context (io : bool) (lo hi : Z).
Hypothesis Hs : host_side l l' io lo hi.
Hypothesis Hd : forall x e a, lo <= x < hi -> In (e, a) (flat_map bar_allocs n) -> decodes io x a.
Lemma exchange_mem t ty w : tlp_check t = Ok true -> fmt_type t = Ok ty -> route_of ty t = TAddr io (address t) -> lo <= address t < hi ->
  exchange z k w (f_id (net_fn u)) t = ('(w, cs) <- serve k w (Passes t) ;; cs <- back z id0 (f_id (net_fn u)) cs ;; Ok (w, cs)).
Proof.
  intros C T R X. destruct Hs as (S1 & S2 & S3). apply (exchange_host t ty io w C T R); [lia| |].
  - intros e a. exact (Hd _ e a X).
  - intros k0. exact (S3 _ k0 X).
Qed.
End Host.
Lemma back_host p u cs : p <> [] -> net_at z p = Some u -> Forall (returning (f_id (net_fn u))) cs -> back z id0 (f_id (net_fn u)) cs = Ok cs.
Proof. intros Np P. exact (host_back m h z l h' b n l' U p u Np P cs). Qed.

(** Memory of the host *)
Section HostMem.
Context (p : list nat) (u : net) (lo hi : Z).
Hypothesis Np : p <> [].
Hypothesis P : net_at z p = Some u.
Hypothesis Hs : host_side l l' false lo hi.
Hypothesis Hd : forall x e a, lo <= x < hi -> In (e, a) (flat_map bar_allocs n) -> decodes false x a.
Lemma read_host w lim tg t : 0 <= rc_mps (s_rc k) <= 5 -> request_ok MEM_READ MEM_READ_64 lim t -> requester_id t = f_id (net_fn u) -> 0 <= first_be t < 16 -> 0 <= last_be t < 16 ->
  lo <= address t -> address t + 4 * tlen t <= hi -> h_find (w_host w) (address t) (4 * tlen t) = true -> h_access (w_host w) (address t) (4 * tlen t) = true ->
  exchange z k w (f_id (net_fn u)) (set_tag tg t) = Ok (w, rc_mem_read (s_rc k) (w_host w) (set_tag tg t)).
Proof.
  intros Hp Ro Rs F1 F2 X1 X2 Hf Ha. destruct (mem_route _ _ _ _ Ro (or_introl eq_refl)) as (ty & T & Ty & R). pose proof (request_page _ _ _ _ Ro) as Pg. pose proof Ro as [L A _ _ _ C].
  rewrite (exchange_mem p u Np P false lo hi Hs Hd (set_tag tg t) ty w C T R) by (change (address (set_tag tg t)) with (address t); lia).
  assert (S : serve k w (Passes (set_tag tg t)) = Ok (w, rc_mem_read (s_rc k) (w_host w) (set_tag tg t))).
  { cbn [serve]. change (fmt_type (set_tag tg t)) with (fmt_type t). rewrite T. cbn [bind]. destruct Ty as [-> | ->]; reflexivity. }
  rewrite S. cbn [bind]. destruct (rc_completions (s_rc k) (w_host w) (set_tag tg t)) as [G1 G2]; try assumption; [split; assumption|lia|].
  rewrite (back_host p u _ Np P); [reflexivity|]. rewrite <- Rs. eapply (split_returns id0 (set_tag tg t)); [exact G1|exact G2|].
  assert (2 ^ rc_mps (s_rc k) <= 2 ^ 5) by (apply Z.pow_le_mono_r; lia). unfold split_limit. destruct (rc_split_all (s_rc k)), (rc_rcb128 (s_rc k)); lia.
Qed.
Lemma mem_read_host c w tg addr len : rq_id c = f_id (net_fn u) -> 0 <= rc_mps (s_rc k) <= 5 -> 0 <= rq_mrrs c -> rq_bus_master c = true -> 0 <= len -> lo <= hull_lo addr -> hull_hi addr len <= hi ->
  (forall a k, hull_lo addr <= a -> a + k <= hull_hi addr len -> h_find (w_host w) a k = true /\ h_access (w_host w) a k = true) ->
  mem_read c (fun i t => arriving z k w (rq_id c) (set_tag (tg i) t)) addr len = Ok (read_mem (h_mem (w_host w)) addr len).
Proof.
  intros Id Hp Hm Hb Hn H1 H2 Hh. assert (A : forall i t, In t (map snd (read_ops c addr len)) -> exists l0 tl, arriving z k w (rq_id c) (set_tag (tg i) t) = l0 ++ tl /\ good_answer (h_mem (w_host w)) t l0).
  { intros i t I. destruct (read_ops_range c addr len t Hm I) as (R1 & R2 & R3 & R4 & R5 & R6 & R7). destruct (read_ops_ok c addr len t Hm Hn I) as [Ro Rs]. destruct (Hh (address t) (4 * tlen t) R1 R2) as [Hf Ha]. unfold hull_lo, hull_hi in *.
    unfold arriving. rewrite Id in *. rewrite (read_host w _ (tg i) t Hp Ro Rs R5 R6) by (assumption || lia). eexists. exists []. split; [symmetry; apply app_nil_r|]. apply rc_good_answer; try assumption; lia. }
  destruct (Z.eq_dec len 0) as [->|N].
  - exact (mem_read_zero c _ _ addr Hm Hb A).
  - apply mem_read_e2e; try assumption. lia.
Qed.
Lemma writes_host c tg : rq_id c = f_id (net_fn u) -> forall ts i w, Forall (write_ok c lo hi) ts ->
  exchanges z k w (f_id (net_fn u)) tg i ts = Ok (mkW (fold_left rc_mem_write ts (w_host w)) (w_bar w), map (fun _ => []) ts).
Proof.
  intros Id. induction ts as [|t ts IH]; intros i w F; [destruct w; reflexivity|]. inversion F as [|? ? (F1 & F2 & F3 & F4) F5]; subst. destruct (mem_route _ _ _ _ F1 (or_intror eq_refl)) as (ty & T & Ty & R). pose proof F1 as [L A _ _ _ C].
  cbn [exchanges]. rewrite (exchange_mem p u Np P false lo hi Hs Hd (set_tag (tg i) t) ty w C T R) by (change (address (set_tag (tg i) t)) with (address t); lia).
  assert (S : serve k w (Passes (set_tag (tg i) t)) = Ok (mkW (rc_mem_write (w_host w) t) (w_bar w), [])).
  { cbn [serve]. change (fmt_type (set_tag (tg i) t)) with (fmt_type t). rewrite T. cbn [bind]. destruct Ty as [-> | ->]; reflexivity. }
  rewrite S. cbn [bind back]. rewrite IH by exact F5. reflexivity.
Qed.
Lemma mem_write_host c w tg addr d : rq_id c = f_id (net_fn u) -> 0 <= rq_mps c -> rq_bus_master c = true -> d <> [] -> lo <= hull_lo addr -> hull_hi addr (zlen d) <= hi ->
  (forall a k, hull_lo addr <= a -> a + k <= hull_hi addr (zlen d) -> h_find (w_host w) a k = true /\ h_access (w_host w) a k = true) ->
  exists ts w', mem_write c addr d = Ok ts /\ exchanges z k w (rq_id c) tg 0 ts = Ok (w', map (fun _ => []) ts) /\ w_bar w' = w_bar w /\ forall x, h_mem (w_host w') x = replaced (h_mem (w_host w)) addr d x.
Proof.
  intros Id Hm Hb Hn H1 H2 Hh. destruct (mem_writes c addr d Hm Hn Hb) as (ts & E & C & F). exists ts.
  assert (F' : Forall (write_ok c lo hi) ts) by (eapply Forall_impl; [|exact F]; intros t (A1 & A2 & A3 & A4); split; [exact A1|]; split; [exact A2|]; lia).
  eexists. split; [exact E|]. rewrite Id. split; [exact (writes_host c tg Id ts 0%nat w F')|]. split; [reflexivity|]. cbn [w_host].
  apply (rc_writes_ok (128 * 2 ^ rq_mps c) (hull_lo addr) (hull_hi addr (zlen d))); try assumption; (eapply Forall_impl; [|exact F]); intros t (A1 & A2 & A3 & A4); auto.
Qed.
End HostMem.

(** I/O of the host *)
Section HostIo.
Context (p : list nat) (u : net) (lo hi : Z).
Hypothesis Np : p <> [].
Hypothesis P : net_at z p = Some u.
Hypothesis Hs : host_side l l' true lo hi.
Hypothesis Hd : forall x e a, lo <= x < hi -> In (e, a) (flat_map bar_allocs n) -> decodes true x a.
Definition open_to (w : host_mem) (x y : Z) : Prop := forall a k, x <= a -> a + k <= y -> h_find w a k = true /\ h_access w a k = true.
Lemma ioread_host c w tg t : rq_id c = f_id (net_fn u) -> io_req_ok IO_READ c t -> lo <= address t -> address t + 4 <= hi -> open_to (w_host w) (address t) (address t + 4) ->
  exists x, exchange z k w (rq_id c) (set_tag tg t) = Ok (w, [x]) /\ good_io_answer (h_mem (w_host w)) t x.
Proof.
  intros Id (L & A & T & _ & Rs & C) X1 X2 O. rewrite Id. rewrite (exchange_mem p u Np P true lo hi Hs Hd (set_tag tg t) IO_READ w C T eq_refl) by (change (address (set_tag tg t)) with (address t); lia).
  destruct (rc_io_read_ok (w_host w) t tg L (proj1 (O (address t) 4 ltac:(lia) ltac:(lia))) (fun a k0 H1 H2 => proj2 (O a k0 H1 H2))) as (x & Ex & G1 & G2). exists x. split; [|exact G1].
  assert (Bc : byte_count x = 4).
  { clear - Ex L O G1. destruct G1 as [Gs _ _]. unfold rc_io_read in Ex. change (address (set_tag tg t)) with (address t) in Ex. change (tlen (set_tag tg t)) with (tlen t) in Ex. rewrite L in Ex. change (1 * 4) with 4 in Ex.
    rewrite (proj1 (O (address t) 4 ltac:(lia) ltac:(lia))) in Ex. cbn [py_assert Z.eqb Pos.eqb bind negb] in Ex. destruct (negb _).
    - apply (f_equal (fun r => match r with Ok (y :: _) => status y | _ => 0 end)) in Ex. rewrite Gs in Ex. discriminate Ex.
    - apply (f_equal (fun r => match r with Ok (y :: _) => byte_count y | _ => 0 end)) in Ex. symmetry in Ex. exact Ex. }
  assert (S : serve k w (Passes (set_tag tg t)) = Ok (w, [x])).
  { cbn [serve]. change (fmt_type (set_tag tg t)) with (fmt_type t). rewrite T. cbn [bind]. rewrite Ex. reflexivity. }
  rewrite S. cbn [bind]. rewrite (back_host p u [x] Np P); [reflexivity|]. constructor; [|constructor]. rewrite <- Id, <- Rs. exact (one_returns _ _ _ _ _ G2 G1 Bc).
Qed.
Lemma io_read_host c w tg addr len : rq_id c = f_id (net_fn u) -> rq_bus_master c = true -> 1 <= len -> lo <= hull_lo addr -> hull_hi addr len <= hi -> open_to (w_host w) (hull_lo addr) (hull_hi addr len) ->
  io_read c (fun i t => arriving z k w (rq_id c) (set_tag (tg i) t)) addr len = Ok (read_mem (h_mem (w_host w)) addr len).
Proof.
  intros Id Hb Hn H1 H2 O. apply io_read_e2e; try assumption. intros i t I. destruct (io_reads c addr len t Hn I) as (R & X1 & X2).
  destruct (ioread_host c w (tg i) t Id R ltac:(lia) ltac:(lia) ltac:(intros a0 k0 Y1 Y2; apply O; lia)) as (x & E & G). exists x, []. unfold arriving. rewrite E. auto.
Qed.
Lemma iowrites_host c tg : rq_id c = f_id (net_fn u) -> forall ts addr d, covers_write addr d ts -> forall x0 y0 i w, lo <= x0 -> y0 <= hi -> open_to (w_host w) x0 y0 -> Forall (io_write_ok' c x0 y0) ts ->
  exists w' css, exchanges z k w (rq_id c) tg i ts = Ok (w', css) /\ length css = length ts /\ Forall (fun cs => exists x, cs = [x] /\ status x = 0) css /\ w_bar w' = w_bar w /\
    forall x, h_mem (w_host w') x = replaced (h_mem (w_host w)) addr d x.
Proof.
  intros Id ts addr d C. induction C as [addr|addr d d' t ts Hd' Ha He C IH]; intros x0 y0 i w Hx Hy O F.
  - exists w, []. split; [reflexivity|]. split; [reflexivity|]. split; [constructor|]. split; [reflexivity|]. intros x. rewrite replaced_nil. reflexivity.
  - pose proof (Forall_inv F) as ((L & A & T & T0 & Rs & Ck) & F2 & F3 & F4). pose proof (Forall_inv_tail F) as F5. clear F. cbn [exchanges].
    assert (O' : forall a k0, address t <= a -> a + k0 <= address t + 4 -> h_find (w_host w) a k0 = true /\ h_access (w_host w) a k0 = true) by (intros a0 k0 Y1 Y2; apply O; lia).
    destruct (rc_io_write_ok (w_host w) (set_tag (tg i) t) L F2 (proj1 (O' (address t) 4 ltac:(lia) ltac:(lia))) (fun a k0 H1 H2 => proj2 (O' a k0 H1 H2))) as (h1 & Eh & Mh). destruct (rc_io_write_keeps _ _ _ _ Eh) as [K1 K2].
    assert (E : exchange z k w (rq_id c) (set_tag (tg i) t) = Ok (mkW h1 (w_bar w), [set_byte_count 4 (create_completion (set_tag (tg i) t) id0 false SC)])).
    { rewrite Id. rewrite (exchange_mem p u Np P true lo hi Hs Hd (set_tag (tg i) t) IO_WRITE w Ck T eq_refl) by (change (address (set_tag (tg i) t)) with (address t); lia).
      assert (S : serve k w (Passes (set_tag (tg i) t)) = Ok (mkW h1 (w_bar w), [set_byte_count 4 (create_completion (set_tag (tg i) t) id0 false SC)])).
      { cbn [serve]. change (fmt_type (set_tag (tg i) t)) with (fmt_type t). rewrite T. cbn [bind]. rewrite Eh. reflexivity. }
      rewrite S. cbn [bind]. rewrite (back_host p u _ Np P); [reflexivity|]. constructor; [|constructor]. rewrite <- Id, <- Rs. exact (done_returns (set_tag (tg i) t) id0). }
    rewrite E. cbn [bind]. destruct (IH x0 y0 (S i) (mkW h1 (w_bar w)) Hx Hy) as (w' & css & E' & J1 & J2 & J3 & J4); [intros a0 k0 Y1 Y2; cbn [w_host]; rewrite K1, K2; apply O; lia|exact F5|]. rewrite E'. cbn [bind]. eexists. eexists.
    split; [reflexivity|]. split; [cbn [length]; congruence|]. split; [constructor; [eexists; split; reflexivity|exact J2]|]. split; [exact J3|].
    intros y. rewrite J4, <- replaced_app. cbn [w_host]. apply replaced_ext. intros v. rewrite Mh. change (address (set_tag (tg i) t)) with (address t).
    transitivity (masked_write (h_mem (w_host w)) (address t - 0) t v); [rewrite Z.sub_0_r; reflexivity|]. transitivity (replaced (h_mem (w_host w)) (addr - 0) d v); [|rewrite Z.sub_0_r; reflexivity]. apply masked_replaced; try assumption; try lia; reflexivity.
Qed.
Lemma io_write_host c w tg addr d : rq_id c = f_id (net_fn u) -> rq_bus_master c = true -> d <> [] -> lo <= hull_lo addr -> hull_hi addr (zlen d) <= hi -> open_to (w_host w) (hull_lo addr) (hull_hi addr (zlen d)) ->
  exists ts w' css, io_write c addr d = Ok ts /\ exchanges z k w (rq_id c) tg 0 ts = Ok (w', css) /\ io_write_join (fun i _ => nth i css []) 0 ts = Ok tt /\ w_bar w' = w_bar w /\ forall x, h_mem (w_host w') x = replaced (h_mem (w_host w)) addr d x.
Proof.
  intros Id Hb Hn H1 H2 O. destruct (io_writes c addr d Hn Hb) as (ts & E & C & F). exists ts.
  destruct (iowrites_host c tg Id ts addr d C _ _ 0%nat w H1 H2 O F) as (w' & css & E' & K1 & K2 & K). exists w', css. split; [exact E|]. split; [exact E'|]. split; [|exact K].
  apply (joined ts 0%nat css) with (pre := []); auto. apply (not_mem_read c). eapply Forall_impl; [|exact F]. intros t (A1 & _). exact A1.
Qed.
End HostIo.
End Up.
