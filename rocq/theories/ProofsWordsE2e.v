From Verif Require Import Base BaseProofs ModelUtils ModelTlp SpecTlp ModelRegion ModelCompleter SpecMem ModelWords SpecWords ProofsWords
  ProofsMem ProofsMemE2e ProofsMemWrite ProofsIo ModelAttrs ModelConfig ModelHost SpecConfig SpecHost ProofsHost.

Lemma host_writes_access addr d : forall runs h, h_find (snd (host_writes h addr d runs)) = h_find h /\ h_access (snd (host_writes h addr d runs)) = h_access h.
Proof.
  induction runs as [|[s e] l IH]; intros h; cbn [host_writes]; [split; reflexivity|]. destruct (h_access h _ _); [|split; reflexivity].
  destruct (IH (mkHost (h_find h) (h_access h) (write_mem (h_mem h) (addr + s) (slice s e d)))) as [A B]. rewrite A, B. split; reflexivity.
Qed.
Lemma rc_writes_access ts : forall h, h_find (fold_left rc_mem_write ts h) = h_find h /\ h_access (fold_left rc_mem_write ts h) = h_access h.
Proof.
  induction ts as [|t l IH]; intros h; cbn [fold_left]; [split; reflexivity|]. destruct (IH (rc_mem_write h t)) as [A B]. rewrite A, B.
  unfold rc_mem_write. destruct (negb _); [split; reflexivity|]. destruct (_ >? _); [split; reflexivity|]. apply host_writes_access.
Qed.
Lemma zlen_read_mem m a n : 0 <= n -> zlen (read_mem m a n) = n.
Proof. intros H. unfold read_mem, zlen. rewrite map_length, seq_length. lia. Qed.
Lemma host_stores c rcc tg tl addr n : 0 <= rq_mrrs c -> 0 <= rq_mps c -> rq_bus_master c = true -> 0 <= rc_mps rcc -> 1 <= n ->
  stores (host_rd c rcc tg tl) (host_wr c) h_mem (host_ok addr n) addr n.
Proof.
  intros Hr Hp Hb Hm Hn. split.
  - intros h Hh. exists h, (read_mem (h_mem h) addr n). unfold host_rd. rewrite mem_read_rc by (try assumption; lia). split; [reflexivity|].
    split; [apply zlen_read_mem; lia|]. split; [reflexivity|]. split; [exact Hh|]. intros k Hk. apply nth_read_mem; exact Hk.
  - intros h d Hh Hd. destruct (mem_write_rc c h addr d Hp Hb) as (ts & E & V); [intros ->; cbn in Hd; lia|rewrite Hd; exact Hh|].
    exists (fold_left rc_mem_write ts h). unfold host_wr. rewrite E. split; [reflexivity|]. split.
    + unfold host_ok. destruct (rc_writes_access ts h) as [A B]. rewrite A, B. exact Hh.
    + intros x. rewrite V. unfold replaced. rewrite Hd. reflexivity.
Qed.
Lemma bar_stores c cid mps base size tg tl addr n : 0 <= rq_mrrs c -> 0 <= rq_mps c -> rq_bus_master c = true -> 0 <= mps -> 1 <= n ->
  page_safe base size -> base <= hull_lo addr -> hull_hi addr n <= base + size ->
  stores (bar_rd c cid mps base tg tl) (bar_wr c base) (fun r x => rg_mem r (x - base)) (fun r => rg_size r = size) addr n.
Proof.
  intros Hr Hp Hb Hm Hn Hs Hl Hh. split.
  - intros r E. exists r, (read_mem (rg_mem r) (addr - base) n). unfold bar_rd. rewrite mem_read_ep by (rewrite ?E; try assumption; lia). split; [reflexivity|].
    split; [apply zlen_read_mem; lia|]. split; [reflexivity|]. split; [exact E|]. intros k Hk. rewrite nth_read_mem by exact Hk. f_equal. lia.
  - intros r d E Hd. destruct (mem_write_ep c r base addr d Hp Hb) as (ts & r' & E1 & E2 & E3 & V); try (rewrite ?Hd, ?E; assumption); [intros ->; cbn in Hd; lia|].
    exists r'. unfold bar_wr. rewrite E1. cbn [bind]. split; [exact E2|]. split; [congruence|]. intros x. rewrite V. unfold replaced. rewrite Hd.
    destruct (_ && _) eqn:C1, ((addr <=? x) && _) eqn:C2; try reflexivity; try (exfalso; clear - C1 C2; lia). f_equal. lia.
Qed.
Lemma iobar_stores c cid base size tg tl addr n : rq_bus_master c = true -> 1 <= n -> base <= hull_lo addr -> hull_hi addr n <= base + size ->
  stores (iobar_rd c cid base tg tl) (iobar_wr c cid base tg) (fun r x => rg_mem r (x - base)) (fun r => rg_size r = size) addr n.
Proof.
  intros Hb Hn Hl Hh. split.
  - intros r E. exists r, (read_mem (rg_mem r) (addr - base) n). unfold iobar_rd. rewrite io_read_ep by (rewrite ?E; try assumption; lia). split; [reflexivity|].
    split; [apply zlen_read_mem; lia|]. split; [reflexivity|]. split; [exact E|]. intros k Hk. rewrite nth_read_mem by exact Hk. f_equal. lia.
  - intros r d E Hd. destruct (io_write_ep c cid base tg r addr d Hb) as (ts & css & r' & E1 & E2 & E3 & E4 & V); try (rewrite ?Hd, ?E; assumption); [intros ->; cbn in Hd; lia|].
    exists r'. unfold iobar_wr. rewrite E1. cbn [bind]. rewrite E2. cbn [bind]. rewrite E3. cbn [bind]. split; [reflexivity|]. split; [congruence|]. intros x. rewrite V. unfold replaced. rewrite Hd.
    destruct (_ && _) eqn:C1, ((addr <=? x) && _) eqn:C2; try reflexivity; try (exfalso; clear - C1 C2; lia). f_equal. lia.
Qed.

(** ** Configuration space *)
Lemma config_words rd wr ms tg crs dev addr n o ws f : In (rd, wr, ms) cfg_kinds -> 0 <= n -> (0 < ws)%nat -> at_id dev f ->
  (forall r, addr / 4 <= r <= (addr + n * Z.of_nat ws - 1) / 4 -> readable rd f r) ->
  exists words f', read_words (config_read (cfg_deliver rd wr tg) crs dev) addr n o ws f = Ok (f', words) /\ zlen words = n /\ Forall (fits ws) words /\
    forall i j, 0 <= i < n -> 0 <= j < Z.of_nat ws ->
      cfg_byte rd f (addr + place o (Z.of_nat ws) i j) = Some (SpecWords.byte_of (nth (Z.to_nat i) words 0) j).
Proof.
  intros Hk Hn Hw Hi Hr. destruct (host_read rd wr ms tg crs dev addr (n * Z.of_nat ws) f Hk ltac:(lia) Hi Hr) as (d & E & L & P).
  assert (B : bytes_ok d).
  { apply Forall_forall. intros b Hb. destruct (In_nth _ _ 0 Hb) as (k & Hk2 & <-). specialize (P (Z.of_nat k)).
    unfold zlen in L. specialize (P ltac:(lia)). rewrite Nat2Z.id in P. unfold cfg_byte in P. destruct (rd f _) as [[v|]|]; try discriminate.
    set (y := nth k d 0) in *. clearbody y. injection P as <-. unfold byte_ok. apply Z.mod_pos_bound. lia. }
  destruct (read_words_ok (config_read (cfg_deliver rd wr tg) crs dev) addr n o ws f _ d Hn E B L) as (words & E2 & L2 & [Ly F Q]).
  exists words. eexists. split; [exact E2|]. split; [exact L2|]. split; [exact F|]. intros i j Hi2 Hj.
  rewrite P by (unfold place; destruct o; nia). rewrite Q by lia. reflexivity.
Qed.
