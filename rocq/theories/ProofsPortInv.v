From Verif Require Import Base BaseProofs ModelTlp SpecTlp ProofsTlpCodec ModelDllp ModelPort SpecPort ProofsPort.

Definition dllp_val (k : bool) (d : dllp) : Z := if k then d_data_fc d else d_hdr_fc d.
Definition is_fc (ty : fc_type) (d : dllp) : bool := match dllp_fc_type (d_type d) with Ok c => fc_eqb c ty | Err _ => false end.
Definition fc_vals (k : bool) (ty : fc_type) (l : list packet) : list Z :=
  flat_map (fun x => match x with PDllp d => if is_fc ty d then [dllp_val k d] else [] | _ => [] end) l.
Definition acks (l : list packet) : list Z :=
  flat_map (fun x => match x with PDllp d => if d_type d =? D_ACK then [d_seq d] else [] | _ => [] end) l.
Definition pkt_ok (x : packet) : Prop :=
  match x with
  | PTlp t => classed t
  | PDllp d => (d_type d = D_ACK /\ 0 <= d_seq d < 4096) \/ (In (d_type d) d_fc_types /\ d_vc d = 0)
  end.
(** Announced credit when [f] credits have been freed. *)
Definition annd (k : bool) (i f : Z) : Z := if i =? 0 then 0 else (i + f) mod width k.
Definition cnt (k : bool) (i x : Z) : Z := if i =? 0 then 0 else x mod width k.

(** The invariant of one direction: [T] sends TLPs to [R]; [out] is on the wire from [T] to [R],
    [back] from [R] to [T]. *)
Record dirinv (adv : bool -> fc_type -> Z) (T R : port) (out back : list packet) (g tx rx hd : list tlp)
    (rel : nat -> bool) : Prop := mkDir {
  d_out : Forall pkt_ok out;
  d_sq : map seq tx = map (fun i => Z.of_nat i mod 4096) (List.seq 0 (length tx));
  d_ntx : p_next_tx T = zlen tx mod 4096;
  d_deliv : exists x, tx = x ++ tlps out /\ rx = map tlp_copy x;
  d_nrx : p_next_rx R = zlen rx mod 4096;
  d_nak : p_nak R = false;
  d_tok : c_tok (p_ch R) = length rx;
  d_hd : hd ++ map snd (p_rxq R) = rx;
  d_ack : exists a, (a <= length tx)%nat /\ p_retry T = skipn a tx /\ p_ackd T = (Z.of_nat a - 1) mod 4096 /\
          chain (fun r => (r - 1) mod 4096) (Z.of_nat a) (acks back) (zlen rx);
  d_gate : forall k ty, sum_credits k ty g = sum_credits k ty tx + sum_credits k ty (p_txq T) + sum_credits k ty (p_pend T);
  d_cls : Forall classed tx /\ Forall classed (p_txq T) /\ Forall classed (p_pend T);
  d_rel : c_rel (p_ch R) = unreleased rel 0 rx;
  d_relb : forall n, (length rx <= n)%nat -> rel n = false;
  d_flags : c_active (p_ch T) = true /\ c_initialized (p_ch T) = c_fi2 (p_ch T) /\
            (c_fi2 (p_ch T) = true -> c_fi1 (p_ch T) = true) /\
            c_fi1 (p_ch T) = g_p (c_fi1t (p_ch T)) && g_np (c_fi1t (p_ch T)) && g_cpl (c_fi1t (p_ch T));
  d_idle : c_fi2 (p_ch T) = false -> g = [] /\ tx = [] /\ p_txq T = [] /\ p_pend T = [];
  d_fc : forall k ty,
    let i := adv k ty in let fT := fcof k ty (p_ch T) in let fR := fcof k ty (p_ch R) in
    let used := sum_credits k ty g in let free := freed k ty rel 0 rx in
    0 <= i < width k / 2 /\ f_bits fT = bits k /\ f_bits fR = bits k /\ rx_init fR = i /\
    rx_alloc fR = annd k i free /\ rx_recv fR = cnt k i (sum_credits k ty rx) /\
    exists f0, 0 <= f0 /\ chain (annd k i) f0 (fc_vals k ty back) free /\ (i = 0 \/ used <= i + f0) /\
      if get3 ty (c_fi1t (p_ch T)) then tx_init fT = i /\ tx_limit fT = annd k i f0 /\ tx_cons fT = cnt k i used
      else tx_init fT = 0 /\ tx_cons fT = 0 }.

(** ** Frames *)
Definition txp (f : fcs) := (f_bits f, tx_init f, tx_cons f, tx_limit f).
Definition rxp (f : fcs) := (f_bits f, rx_init f, rx_alloc f, rx_recv f).
Record teq (p q : port) : Prop := mkTeq {
  t_ntx : p_next_tx q = p_next_tx p; t_ackd : p_ackd q = p_ackd p; t_retry : p_retry q = p_retry p;
  t_txq : p_txq q = p_txq p; t_pend : p_pend q = p_pend p;
  t_act : c_active (p_ch q) = c_active (p_ch p); t_ini : c_initialized (p_ch q) = c_initialized (p_ch p);
  t_fi1 : c_fi1 (p_ch q) = c_fi1 (p_ch p); t_fi1t : c_fi1t (p_ch q) = c_fi1t (p_ch p);
  t_fi2 : c_fi2 (p_ch q) = c_fi2 (p_ch p);
  t_fc : forall k ty, txp (fcof k ty (p_ch q)) = txp (fcof k ty (p_ch p)) }.
Record req (p q : port) : Prop := mkReq {
  r_nrx : p_next_rx q = p_next_rx p; r_nak : p_nak q = p_nak p; r_rxq : p_rxq q = p_rxq p;
  r_tok : c_tok (p_ch q) = c_tok (p_ch p); r_rel : c_rel (p_ch q) = c_rel (p_ch p);
  r_fc : forall k ty, rxp (fcof k ty (p_ch q)) = rxp (fcof k ty (p_ch p)) }.
Lemma teq_refl p : teq p p. Proof. constructor; reflexivity. Qed.
Lemma req_refl p : req p p. Proof. constructor; reflexivity. Qed.

Lemma dir_teq adv T T' R out back g tx rx hd rel : teq T T' ->
  dirinv adv T R out back g tx rx hd rel -> dirinv adv T' R out back g tx rx hd rel.
Proof.
  intros [e1 e2 e3 e4 e5 e6 e7 e8 e9 e10 e11] [].
  constructor; rewrite ?e1, ?e2, ?e3, ?e4, ?e5, ?e6, ?e7, ?e8, ?e9, ?e10; auto.
  intros k ty. specialize (d_fc0 k ty). specialize (e11 k ty). unfold txp in e11.
  cbv zeta in *. injection e11 as -> -> -> ->. exact d_fc0.
Qed.
Lemma dir_req adv T R R' out back g tx rx hd rel : req R R' ->
  dirinv adv T R out back g tx rx hd rel -> dirinv adv T R' out back g tx rx hd rel.
Proof.
  intros [e1 e2 e3 e4 e5 e6] [].
  constructor; rewrite ?e1, ?e2, ?e3, ?e4, ?e5; auto.
  intros k ty. specialize (d_fc0 k ty). specialize (e6 k ty). unfold rxp in e6.
  cbv zeta in *. injection e6 as -> -> -> ->. exact d_fc0.
Qed.
Lemma dir_rel adv T R out back g tx rx hd rel rel' : (forall n, rel n = rel' n) ->
  dirinv adv T R out back g tx rx hd rel -> dirinv adv T R out back g tx rx hd rel'.
Proof.
  intros E []. constructor; auto.
  - rewrite d_rel0. apply unreleased_ext. auto.
  - intros n L. rewrite <- E. auto.
  - intros k ty. specialize (d_fc0 k ty). cbv zeta in *.
    rewrite <- (freed_ext k ty rel rel') by auto. exact d_fc0.
Qed.

(** ** Lists of packets *)
Lemma tlps_app l m : tlps (l ++ m) = tlps l ++ tlps m.
Proof. apply flat_map_app. Qed.
Lemma fc_vals_app k ty l m : fc_vals k ty (l ++ m) = fc_vals k ty l ++ fc_vals k ty m.
Proof. apply flat_map_app. Qed.
Lemma acks_app l m : acks (l ++ m) = acks l ++ acks m.
Proof. apply flat_map_app. Qed.

(** A DLLP enters or leaves the wire of the sender: nothing changes for it. *)
Lemma dir_out_dllp adv T R d out back g tx rx hd rel : pkt_ok (PDllp d) ->
  dirinv adv T R out back g tx rx hd rel -> dirinv adv T R (out ++ [PDllp d]) back g tx rx hd rel.
Proof.
  intros K []. constructor; auto.
  - apply Forall_app. auto.
  - rewrite tlps_app. cbn. rewrite app_nil_r. exact d_deliv0.
Qed.
Lemma dir_out_drop adv T R d out back g tx rx hd rel :
  dirinv adv T R (PDllp d :: out) back g tx rx hd rel -> dirinv adv T R out back g tx rx hd rel.
Proof.
  intros []. constructor; auto.
  apply Forall_inv_tail in d_out0. exact d_out0.
Qed.
(** A TLP enters or leaves the wire towards the sender. *)
Lemma dir_back_tlp adv T R t out back g tx rx hd rel :
  dirinv adv T R out back g tx rx hd rel -> dirinv adv T R out (back ++ [PTlp t]) g tx rx hd rel.
Proof.
  intros []. constructor; auto.
  - rewrite acks_app. cbn. rewrite app_nil_r. exact d_ack0.
  - intros k ty. rewrite fc_vals_app. cbn [fc_vals flat_map app]. rewrite app_nil_r. apply d_fc0.
Qed.
Lemma dir_back_drop adv T R t out back g tx rx hd rel :
  dirinv adv T R out (PTlp t :: back) g tx rx hd rel -> dirinv adv T R out back g tx rx hd rel.
Proof. intros []. constructor; auto. Qed.

(** ** The credit gate *)
Lemma mod_le x w : 0 <= x -> 0 < w -> x mod w <= x.
Proof. intros. apply Z.mod_le; lia. Qed.
Lemma cnt_add k i x y : Z.land (cnt k i x + y) (2 ^ bits k - 1) = cnt k i (x + y) \/ i = 0.
Proof.
  unfold cnt. destruct (Z.eqb_spec i 0); [auto|left]. rewrite land_mask.
  rewrite Zplus_mod_idemp_l. reflexivity.
Qed.
(** What the gate believes to be available is at most what is left. *)
Lemma avail_le k i fT f0 used :
  f_bits fT = bits k -> tx_init fT = i -> tx_limit fT = annd k i f0 -> tx_cons fT = cnt k i used ->
  i <> 0 -> used <= i + f0 -> tx_credits_available fT <= i + f0 - used.
Proof.
  intros B E L C N U. unfold tx_credits_available, tx_is_infinite. rewrite E.
  destruct (Z.eqb_spec i 0); [lia|]. unfold f_mask. rewrite B, land_mask, L, C.
  unfold annd, cnt. destruct (Z.eqb_spec i 0); [lia|].
  rewrite <- Zminus_mod. apply mod_le; [lia|apply width_pos].
Qed.

Lemma dir_gate adv T T' R t out back g tx rx hd rel : tx_gate t T = Some T' ->
  dirinv adv T R out back g tx rx hd rel -> dirinv adv T' R out back (g ++ [t]) tx rx hd rel.
Proof.
  unfold tx_gate. destruct (get_fc_type t) as [c|] eqn:Ec; [|discriminate].
  destruct (c_initialized (p_ch T)) eqn:Ei; [|discriminate]. cbn [andb].
  destruct (tx_has_credit c (get_data_credits t) (p_ch T)) eqn:Eh; [|discriminate].
  intros H []. injection H as <-.
  destruct d_flags0 as (Fa & Fi & F1 & F3). pose proof Fi as F2. rewrite Ei in F2. symmetry in F2.
  constructor; cbn [p_next_tx p_retry p_ackd p_txq p_pend p_ch set_p_pend set_p_ch]; auto.
  - intros k ty. rewrite !sum_app, d_gate0. cbn. lia.
  - destruct d_cls0 as (A & B & C). repeat split; auto. apply Forall_app. split; auto. constructor; auto. exists c; auto.
  - cbn. intros. congruence.
  - intros k ty. specialize (d_fc0 k ty). cbv zeta in *.
    change (c_fi1t (tx_consume_fc c (get_data_credits t) (p_ch T))) with (c_fi1t (p_ch T)).
    destruct d_fc0 as (P1 & P2 & P3 & P4 & P5 & P6 & f0 & Q1 & Q2 & Q3 & Q4).
    unfold tx_consume_fc. rewrite fcof_on.
    assert (F1t : get3 ty (c_fi1t (p_ch T)) = true).
    { rewrite F1 in F3 by assumption. symmetry in F3. apply andb_prop in F3. destruct F3 as [F3 F3'].
      apply andb_prop in F3. destruct ty; cbn; tauto. }
    rewrite F1t in *. destruct Q4 as (Q4 & Q5 & Q6).
    set (m := if k then get_data_credits t else 1).
    assert (Cr : credits k ty t = if fc_eqb ty c then m else 0) by (rewrite (credits_of k ty t c Ec); destruct k; reflexivity).
    rewrite sum_app. cbn [sum_credits]. rewrite Cr.
    destruct (fc_eqb ty c) eqn:Et.
    2:{ rewrite !Z.add_0_r. split; [assumption|]. split; [assumption|]. split; [assumption|].
        split; [assumption|]. split; [assumption|]. split; [assumption|].
        exists f0. split; [assumption|]. split; [assumption|]. split; [assumption|]. auto. }
    apply fc_eqb_eq in Et. subst ty.
    assert (Hm : 0 <= m) by (pose proof (creds_nonneg k c t) as Hn; rewrite Cr in Hn; exact Hn).
    set (fT := fcof k c (p_ch T)) in *.
    assert (Hav : m <= tx_credits_available fT).
    { unfold tx_has_credit in Eh. apply andb_prop in Eh. destruct Eh as [E1 E2]. unfold fT, m, fcof.
      destruct k; lia. }
    replace ((if k then f_tx_consume (get_data_credits t) else f_tx_consume 1) fT) with (f_tx_consume m fT)
      by (unfold m; destruct k; reflexivity).
    assert (Hc : txp (f_tx_consume m fT) = (f_bits fT, tx_init fT, cnt k (adv k c) (sum_credits k c g + m), tx_limit fT)).
    { unfold f_tx_consume, tx_is_infinite, txp. rewrite Q4, Q6. unfold f_mask. rewrite P2.
      destruct (Z.eqb_spec (adv k c) 0) as [E|E].
      - rewrite Q6, Q4, P2. unfold cnt. rewrite E. reflexivity.
      - destruct (cnt_add k (adv k c) (sum_credits k c g) m) as [->|]; [reflexivity|lia]. }
    unfold txp in Hc. injection Hc as -> -> -> ->.
    split; [assumption|]. split; [assumption|]. split; [assumption|].
    split; [assumption|]. split; [assumption|]. split; [assumption|].
    exists f0. split; [assumption|]. split; [assumption|]. split; [|split; [assumption|split; [assumption|]]].
    + destruct (Z.eq_dec (adv k c) 0) as [|n]; [auto|]. destruct Q3 as [|Q3]; [auto|right].
      pose proof (avail_le k (adv k c) fT f0 _ P2 Q4 Q5 Q6 n Q3). lia.
    + rewrite Z.add_0_r. reflexivity.
Qed.

(** ** The transmit queue *)
Lemma remove_nth_sum k ty l t : forall i, nth_error l i = Some t ->
  sum_credits k ty l = credits k ty t + sum_credits k ty (remove_nth i l).
Proof.
  induction l as [|x l IH]; intros [|i] H; try discriminate; cbn in *.
  - injection H as ->. reflexivity.
  - rewrite (IH i H). lia.
Qed.
Lemma remove_nth_forall {A} (P : A -> Prop) l : forall i, Forall P l -> Forall P (remove_nth i l).
Proof.
  induction l as [|x l IH]; intros [|i] H; cbn; auto.
  - apply Forall_inv_tail in H. exact H.
  - constructor; [apply Forall_inv in H; exact H|apply IH; apply Forall_inv_tail in H; exact H].
Qed.
Lemma nth_error_forall {A} (P : A -> Prop) l i x : Forall P l -> nth_error l i = Some x -> P x.
Proof. intros H E. apply nth_error_In in E. rewrite Forall_forall in H. auto. Qed.
Lemma dir_put adv T R i t out back g tx rx hd rel : p_txq T = [] -> nth_error (p_pend T) i = Some t ->
  dirinv adv T R out back g tx rx hd rel ->
  dirinv adv (set_p_txq [t] (set_p_pend (remove_nth i (p_pend T)) T)) R out back g tx rx hd rel.
Proof.
  intros E N []. constructor; cbn [p_next_tx p_retry p_ackd p_txq p_pend p_ch set_p_pend set_p_txq]; auto.
  - intros k ty. rewrite d_gate0, E, (remove_nth_sum k ty (p_pend T) t i N). cbn. lia.
  - destruct d_cls0 as (A & B & C). repeat split; auto using remove_nth_forall.
    constructor; auto. eapply nth_error_forall; eauto.
  - intros H. destruct (d_idle0 H) as (_ & _ & _ & P). rewrite P in N. destruct i; discriminate.
Qed.

Lemma skipn_snoc {A} a (l : list A) x : (a <= length l)%nat -> skipn a (l ++ [x]) = skipn a l ++ [x].
Proof. intros H. rewrite skipn_app. replace (a - length l)%nat with O by lia. reflexivity. Qed.
Lemma dir_tx_tlp adv T R T' t' out back g tx rx hd rel : tx_tlp T = (T', Some (PTlp t')) ->
  dirinv adv T R out back g tx rx hd rel ->
  dirinv adv T' R (out ++ [PTlp t']) back g (tx ++ [t']) rx hd rel.
Proof.
  unfold tx_tlp. destruct (p_txq T) as [|t q] eqn:E; [discriminate|].
  intros H []. injection H as <- <-.
  destruct d_cls0 as (A & B & C). rewrite E in B. pose proof (Forall_inv B) as Ct. pose proof (Forall_inv_tail B) as B'.
  constructor; cbn [p_next_tx p_retry p_ackd p_txq p_pend p_ch set_p_next_tx set_p_retry set_p_txq]; auto.
  - apply Forall_app. split; auto.
  - rewrite app_length, Nat.add_comm. cbn [length Nat.add]. rewrite seq_S, !map_app, d_sq0. cbn [map].
    cbn [seq set_seq]. rewrite d_ntx0. reflexivity.
  - rewrite d_ntx0, land_fff. unfold zlen. rewrite app_length. cbn [length].
    rewrite Zplus_mod_idemp_l. f_equal. lia.
  - destruct d_deliv0 as (x & D1 & D2). exists x. rewrite D1, tlps_app, app_assoc. auto.
  - destruct d_ack0 as (a & L & Hr & Ha & Hc). exists a. repeat split; auto.
    + rewrite app_length. lia.
    + rewrite Hr. symmetry. apply skipn_snoc. auto.
  - intros k ty. rewrite sum_app, d_gate0, E. cbn [sum_credits]. rewrite credits_seq. lia.
  - repeat split; auto. apply Forall_app. split; auto.
  - intros H. destruct (d_idle0 H) as (_ & _ & P & _). congruence.
Qed.

(** ** The receiver sends DLLPs *)
Lemma dir_emit_fc adv T R code ty out back g tx rx hd rel : dllp_fc_type code = Ok ty ->
  dirinv adv T R out back g tx rx hd rel ->
  dirinv adv T R out (back ++ [PDllp (fc_dllp code ty (p_ch R))]) g tx rx hd rel.
Proof.
  intros E []. constructor; auto.
  - destruct d_ack0 as (a & L & Hr & Ha & Hc). exists a. repeat split; auto.
    rewrite acks_app. cbn [acks flat_map d_type fc_dllp].
    destruct (Z.eqb_spec code D_ACK) as [->|_]; [discriminate|]. rewrite app_nil_r. auto.
  - intros k ty'. specialize (d_fc0 k ty'). cbv zeta in *.
    destruct d_fc0 as (P1 & P2 & P3 & P4 & P5 & P6 & f0 & Q1 & Q2 & Q3 & Q4).
    do 6 (split; [assumption|]). exists f0. split; [assumption|]. split; [|split; assumption].
    rewrite fc_vals_app. cbn [fc_vals flat_map]. unfold is_fc. cbn [d_type fc_dllp]. rewrite E.
    destruct (fc_eqb ty ty') eqn:Et; [|rewrite app_nil_r; exact Q2].
    apply fc_eqb_eq in Et. subst ty'. cbn [app]. apply chain_snoc; [exact Q2|].
    rewrite <- P5. destruct k; reflexivity.
Qed.
Lemma dir_emit_ack adv T R out back g tx rx hd rel :
  dirinv adv T R out back g tx rx hd rel ->
  dirinv adv T R out (back ++ [PDllp (create_ack (Z.land (p_next_rx R - 1) 0xfff))]) g tx rx hd rel.
Proof.
  intros []. constructor; auto.
  - destruct d_ack0 as (a & L & Hr & Ha & Hc). exists a. repeat split; auto.
    rewrite acks_app. cbn [acks flat_map d_type create_ack app d_seq]. change (D_ACK =? D_ACK) with true. cbn [app].
    apply chain_snoc; auto. rewrite land_fff, d_nrx0, Zminus_mod_idemp_l. reflexivity.
  - intros k ty. specialize (d_fc0 k ty). cbv zeta in *.
    rewrite fc_vals_app. cbn [fc_vals flat_map]. change (is_fc ty (create_ack _)) with false.
    cbn [app]. rewrite app_nil_r. exact d_fc0.
Qed.

(** ** Receiving a TLP *)
Lemma nth_map_seq (tx x : list tlp) t r :
  map seq tx = map (fun i => Z.of_nat i mod 4096) (List.seq 0 (length tx)) -> tx = x ++ t :: r ->
  seq t = zlen x mod 4096.
Proof.
  intros H E. assert (L : (length x < length tx)%nat) by (rewrite E, app_length; cbn; lia).
  assert (N : nth_error (map seq tx) (length x) = Some (seq t)).
  { rewrite E, map_app, nth_error_app2; rewrite map_length; [|lia]. rewrite Nat.sub_diag. reflexivity. }
  rewrite H, nth_error_map in N. rewrite nth_error_nth' with (d := O) in N by (rewrite seq_length; auto).
  rewrite seq_nth in N by auto. cbn in N. injection N as N. symmetry. exact N.
Qed.
Lemma dir_recv_tlp adv T R t out back g tx rx hd rel :
  dirinv adv T R (PTlp t :: out) back g tx rx hd rel ->
  seq t = p_next_rx R /\
  exists R', ext_recv (PTlp t) R = Ok R' /\ teq R R' /\
  dirinv adv T R' out back g tx (rx ++ [tlp_copy t]) hd rel.
Proof.
  intros []. destruct d_deliv0 as (x & D1 & D2). cbn in D1.
  pose proof (nth_map_seq tx x t _ d_sq0 D1) as Hs.
  assert (Lx : length rx = length x) by (rewrite D2, map_length; reflexivity).
  assert (Hn : seq t = p_next_rx R) by (rewrite d_nrx0, Hs; unfold zlen; rewrite Lx; reflexivity).
  split; [exact Hn|]. cbn [ext_recv]. rewrite Hn, Z.eqb_refl.
  pose proof (Forall_inv d_out0) as Ct. cbn in Ct. destruct (classed_copy t Ct) as [ty Hty].
  unfold rx_process_tlp_fc. rewrite Hty. cbn [bind].
  set (dc := get_data_credits (tlp_copy t)).
  eexists. split; [reflexivity|]. split.
  { constructor; try reflexivity. intros k ty'. cbn [p_ch set_p_rxq set_p_ch].
    change (fcof k ty' (set_rel _ _ ?c)) with (fcof k ty' c).
    unfold rx_consume_fc. rewrite fcof_on. destruct (fc_eqb ty' ty); [|reflexivity].
    destruct k; unfold f_rx_consume; destruct rx_is_infinite; reflexivity. }
  constructor; cbn [p_next_rx p_nak p_rxq p_ch set_p_rxq set_p_ch set_p_ack_timer set_p_nak set_p_next_rx]; auto.
  - apply Forall_inv_tail in d_out0. exact d_out0.
  - exists (x ++ [t]). rewrite <- app_assoc, map_app, D2. auto.
  - rewrite d_nrx0, land_fff. unfold zlen. rewrite app_length. cbn [length]. rewrite Zplus_mod_idemp_l. f_equal. lia.
  - cbn. rewrite app_length, d_tok0. cbn. lia.
  - rewrite map_app, app_assoc, d_hd0. reflexivity.
  - destruct d_ack0 as (a & L & Hr & Ha & Hc). exists a. repeat split; auto.
    eapply chain_upper; [exact Hc|]. unfold zlen. rewrite app_length. lia.
  - cbn. rewrite (unreleased_snoc rel rx (tlp_copy t) ty 0 Hty) by (apply d_relb0; lia).
    rewrite d_rel0, d_tok0. reflexivity.
  - intros n H. rewrite app_length in H. apply d_relb0. lia.
  - intros k ty'. specialize (d_fc0 k ty'). cbv zeta in *.
    destruct d_fc0 as (P1 & P2 & P3 & P4 & P5 & P6 & f0 & Q1 & Q2 & Q3 & Q4).
    rewrite (freed_snoc k ty' rel rx (tlp_copy t) 0) by (apply d_relb0; lia).
    change (fcof k ty' (set_rel _ _ ?c)) with (fcof k ty' c).
    rewrite sum_app. cbn [sum_credits]. rewrite Z.add_0_r.
    set (m := if k then dc else 1).
    assert (Cr : credits k ty' (tlp_copy t) = if fc_eqb ty' ty then m else 0)
      by (rewrite (credits_of k ty' (tlp_copy t) ty Hty); destruct k; reflexivity).
    rewrite Cr. unfold rx_consume_fc. rewrite fcof_on.
    destruct (fc_eqb ty' ty) eqn:Et.
    2:{ rewrite Z.add_0_r. do 6 (split; [assumption|]). exists f0. auto. }
    set (fR := fcof k ty' (p_ch R)) in *.
    replace ((if k then f_rx_consume dc else f_rx_consume 1) fR) with (f_rx_consume m fR)
      by (unfold m; destruct k; reflexivity).
    assert (Hc : rxp (f_rx_consume m fR) = (f_bits fR, rx_init fR, rx_alloc fR, cnt k (adv k ty') (sum_credits k ty' rx + m))).
    { unfold f_rx_consume, rx_is_infinite, rxp. rewrite P4, P6. unfold f_mask. rewrite P3.
      destruct (Z.eqb_spec (adv k ty') 0) as [E|E].
      - rewrite P3, P4, P6. unfold cnt. rewrite E. reflexivity.
      - destruct (cnt_add k (adv k ty') (sum_credits k ty' rx) m) as [->|]; [reflexivity|lia]. }
    unfold rxp in Hc. injection Hc as -> -> -> ->.
    do 5 (split; [assumption|]). split; [reflexivity|]. exists f0. auto.
Qed.

(** ** Receiving an ACK *)
Lemma skipn_cons_nth {A} (l : list A) : forall a, (a < length l)%nat -> exists x, skipn a l = x :: skipn (S a) l.
Proof. induction l as [|y l IH]; cbn; intros a H; [lia|]. destruct a; [exists y; reflexivity|apply IH; lia]. Qed.
Lemma purge_ok (tx : list tlp) q r : q = (Z.of_nat r - 1) mod 4096 -> (r <= length tx)%nat ->
  forall n a ackd, (r - a = n)%nat -> (a <= r)%nat -> ackd = (Z.of_nat a - 1) mod 4096 ->
  exists a', purge q ackd (skipn a tx) = Ok ((Z.of_nat a' - 1) mod 4096, skipn a' tx) /\ (a <= a' <= r)%nat /\
             (Z.of_nat r - Z.of_nat a < 4096 -> a' = r).
Proof.
  intros -> L. induction n as [|n IH]; intros a ackd E Le ->.
  - assert (a = r) by lia. subst a. exists r. split; [|lia].
    destruct (skipn r tx); cbn [purge]; rewrite Z.eqb_refl; reflexivity.
  - destruct (Z.eqb_spec ((Z.of_nat r - 1) mod 4096) ((Z.of_nat a - 1) mod 4096)) as [Q|Q].
    + exists a. split; [|split; [lia|]].
      * destruct (skipn a tx); cbn [purge]; rewrite Q, Z.eqb_refl; reflexivity.
      * intros W. lia.
    + destruct (skipn_cons_nth tx a) as [x Hx]; [lia|].
      destruct (IH (S a) ((Z.of_nat (S a) - 1) mod 4096)) as (a' & P & La & Wa); [lia|lia|reflexivity|].
      exists a'. split; [|split; [lia|intros; apply Wa; lia]].
      rewrite Hx. cbn [purge].
      destruct (Z.eqb_spec ((Z.of_nat r - 1) mod 4096) ((Z.of_nat a - 1) mod 4096)); [contradiction|].
      rewrite land_fff. replace (((Z.of_nat a - 1) mod 4096 + 1) mod 4096) with ((Z.of_nat (S a) - 1) mod 4096); [exact P|].
      rewrite Zplus_mod_idemp_l. f_equal. lia.
Qed.
Lemma rx_le_tx adv T R out back g tx rx hd rel : dirinv adv T R out back g tx rx hd rel -> (length rx <= length tx)%nat.
Proof. intros []. destruct d_deliv0 as (x & -> & ->). rewrite map_length, app_length. lia. Qed.
Lemma dir_recv_ack adv T R d out back g tx rx hd rel : d_type d = D_ACK ->
  dirinv adv T R out (PDllp d :: back) g tx rx hd rel ->
  exists T', handle_dllp d T = Ok T' /\ req T T' /\ dirinv adv T' R out back g tx rx hd rel.
Proof.
  intros Ed I. pose proof (rx_le_tx _ _ _ _ _ _ _ _ _ _ I) as Lx. destruct I.
  destruct d_ack0 as (a & L & Hr & Ha & Hc). cbn [acks flat_map] in Hc. rewrite Ed in Hc.
  change (D_ACK =? D_ACK) with true in Hc. cbn [app] in Hc. destruct Hc as (r & R1 & R2 & R3).
  pose proof (chain_le _ _ _ _ R3) as R4.
  unfold handle_dllp. rewrite Ed. change (D_ACK =? D_NOP) with false. change (zmem D_ACK d_seq_types) with true. cbv iota.
  assert (Dfc : forall k ty, fc_vals k ty (PDllp d :: back) = fc_vals k ty back).
  { intros k ty. cbn [fc_vals flat_map]. unfold is_fc. rewrite Ed. reflexivity. }
  assert (Keep : dirinv adv T R out back g tx rx hd rel).
  { constructor; auto.
    - exists a. repeat split; auto. eapply chain_lower; [exact R3|lia].
    - intros k ty. specialize (d_fc0 k ty). rewrite Dfc in d_fc0. exact d_fc0. }
  destruct (Z.land (Z.land (p_next_tx T - 1) 0xfff - d_seq d) 0xfff >? 2048); [eauto using req_refl|].
  destruct (Z.land (d_seq d - p_ackd T) 0xfff >? 2048); [eauto using req_refl|].
  destruct (purge_ok tx (d_seq d) (Z.to_nat r)) with (a := a) (ackd := p_ackd T) (n := (Z.to_nat r - a)%nat) as (a' & P & La & _);
    [rewrite R2; f_equal; lia|unfold zlen in R4; lia|reflexivity|lia|exact Ha|].
  rewrite Hr, P. cbn [bind]. change (D_ACK =? D_NAK) with false. cbv iota.
  eexists. split; [reflexivity|]. split; [constructor; reflexivity|].
  clear Keep. constructor; auto.
  - exists a'. cbn [p_retry p_ackd set_p_ackd set_p_retry]. repeat split; [unfold zlen in R4; lia|].
    eapply chain_lower; [exact R3|lia].
  - intros k ty. specialize (d_fc0 k ty). rewrite Dfc in d_fc0. exact d_fc0.
Qed.

(** ** Receiving flow control *)
Lemma dir_back_ignore adv T R x out back g tx rx hd rel :
  dirinv adv T R out (x :: back) g tx rx hd rel -> dirinv adv T R out back g tx rx hd rel.
Proof.
  intros []. constructor; auto.
  - destruct d_ack0 as (a & L & Hr & Ha & Hc). exists a. repeat split; auto.
    destruct x as [t|d]; cbn [acks flat_map] in Hc; [exact Hc|].
    destruct (d_type d =? D_ACK); [apply chain_tail in Hc|]; exact Hc.
  - intros k ty. specialize (d_fc0 k ty). cbv zeta in *.
    destruct d_fc0 as (P1 & P2 & P3 & P4 & P5 & P6 & f0 & Q1 & Q2 & Q3 & Q4).
    do 6 (split; [assumption|]). exists f0. split; [assumption|]. split; [|split; assumption].
    destruct x as [t|d]; cbn [fc_vals flat_map] in Q2; [exact Q2|].
    destruct (is_fc ty d); [apply chain_tail in Q2|]; exact Q2.
Qed.
Lemma fc_types_type d : In (d_type d) d_fc_types ->
  exists ty, dllp_fc_type (d_type d) = Ok ty /\ zmem (d_type d) d_fc_types = true /\ (d_type d =? D_NOP) = false /\
  zmem (d_type d) d_seq_types = false.
Proof.
  intros H. unfold d_fc_types in H. cbn [In] in H.
  repeat (destruct H as [H|H]; [rewrite <- H; eexists; repeat split; reflexivity|]). contradiction.
Qed.
Lemma annd_zero k i : 0 <= i < width k / 2 -> annd k i 0 = i.
Proof.
  intros H. unfold annd. destruct (Z.eqb_spec i 0); [auto|]. rewrite Z.add_0_r. apply Z.mod_small.
  pose proof (width_pos k). assert (width k / 2 <= width k) by (apply Z.div_le_upper_bound; lia). lia.
Qed.
Lemma cnt_zero k i : cnt k i 0 = 0.
Proof. unfold cnt. destruct (i =? 0); reflexivity. Qed.
Lemma set3_true ty ty' (r : per3 bool) : get3 ty (set3 ty' true r) = if fc_eqb ty ty' then true else get3 ty r.
Proof. apply get3_set3. Qed.

Lemma dir_recv_fc adv T R d out back g tx rx hd rel : In (d_type d) d_fc_types -> d_vc d = 0 ->
  dirinv adv T R out (PDllp d :: back) g tx rx hd rel ->
  exists T', handle_dllp d T = Ok T' /\ req T T' /\ dirinv adv T' R out back g tx rx hd rel.
Proof.
  intros Hin Hvc I. pose proof (dir_back_ignore _ _ _ _ _ _ _ _ _ _ _ I) as Keep.
  destruct (fc_types_type d Hin) as (ty & Ety & E1 & E2 & E3).
  unfold handle_dllp. rewrite E1, E2, E3, Hvc. change (0 =? 0) with true. cbv iota.
  destruct I. destruct d_flags0 as (Fa & Fi & F1 & F3).
  unfold handle_fc_dllp. rewrite Fa. cbn [negb].
  assert (Self : req T (set_p_ch (p_ch T) T) /\ dirinv adv (set_p_ch (p_ch T) T) R out back g tx rx hd rel).
  { split; [constructor; reflexivity|]. eapply dir_teq; [|exact Keep]. constructor; reflexivity. }
  destruct (c_fi1 (p_ch T)) eqn:Ef1; cbn [negb].
  2:{ (* FC_INIT1 *)
    destruct (zmem (d_type d) d_init_types); [|cbn [bind]; eauto].
    rewrite Ety. cbn [bind]. eexists. split; [reflexivity|].
    assert (Ef2 : c_fi2 (p_ch T) = false) by (destruct (c_fi2 (p_ch T)); [specialize (F1 eq_refl); congruence|reflexivity]).
    destruct (d_idle0 Ef2) as (Hg & Htx & Hq & Hp).
    assert (Hrx : rx = []).
    { destruct d_deliv0 as (x & X1 & X2). rewrite Htx in X1. symmetry in X1. apply app_eq_nil in X1.
      destruct X1 as [-> _]. exact X2. }
    split.
    { constructor; try reflexivity. intros k ty'. cbn [p_ch set_p_ch].
      change (fcof k ty' (set_fi1 _ _ ?c)) with (fcof k ty' c). rewrite fcof_on.
      destruct (fc_eqb ty' ty); [|reflexivity]. destruct k; reflexivity. }
    destruct Keep. constructor; cbn [p_next_tx p_retry p_ackd p_txq p_pend p_ch set_p_ch]; auto.
    - cbn. rewrite Ef2. split; [auto|]. split; [congruence|]. split; [intros; discriminate|reflexivity].
    - intros k ty'. specialize (d_fc0 k ty'). specialize (d_fc1 k ty'). cbv zeta in *.
      change (fcof k ty' (set_fi1 _ _ ?c)) with (fcof k ty' c). rewrite fcof_on.
      change (c_fi1t (set_fi1 ?t _ _)) with t.
      change (c_fi1t (on_credits ty (f_set_initial (d_hdr_fc d)) (f_set_initial (d_data_fc d)) (p_ch T))) with (c_fi1t (p_ch T)).
      rewrite set3_true.
      destruct (fc_eqb ty' ty) eqn:Et; [|exact d_fc1].
      apply fc_eqb_eq in Et. subst ty'.
      destruct d_fc0 as (P1 & P2 & P3 & P4 & P5 & P6 & f0 & Q1 & Q2 & Q3 & Q4).
      cbn [fc_vals flat_map] in Q2. unfold is_fc in Q2. rewrite Ety, fc_eqb_refl in Q2. cbn [app] in Q2.
      destruct Q2 as (f & R1 & R2 & R3). pose proof (chain_le _ _ _ _ R3) as R4.
      rewrite Hrx in R4, R3 |- *. rewrite Hg in Q4 |- *. cbn [freed sum_credits] in *.
      assert (f = 0) by lia. subst f. rewrite (annd_zero _ _ P1) in R2.
      set (fT := fcof k ty (p_ch T)) in *.
      replace ((if k then f_set_initial (d_data_fc d) else f_set_initial (d_hdr_fc d)) fT) with (f_set_initial (adv k ty) fT)
        by (rewrite <- R2; destruct k; reflexivity).
      cbn [f_bits f_set_initial tx_init tx_limit tx_cons].
      do 6 (split; [first [assumption | rewrite P5, Hrx; reflexivity | rewrite P6, Hrx; reflexivity]|]).
      exists 0. split; [lia|]. split; [exact R3|]. split; [right; lia|]. split; [reflexivity|].
      rewrite (annd_zero _ _ P1), cnt_zero. split; [reflexivity|].
      destruct (get3 ty (c_fi1t (p_ch T))); [destruct Q4 as (_ & _ & Q4); rewrite Q4; apply cnt_zero|destruct Q4; auto]. }
  destruct (c_fi2 (p_ch T)) eqn:Ef2; cbn [negb].
  2:{ (* FC_INIT2 *)
    destruct (zmem (d_type d) d_init2_types); [|cbn [bind]; eauto]. cbn [bind].
    eexists. split; [reflexivity|]. split; [constructor; reflexivity|].
    destruct Keep. constructor; auto.
    - cbn. rewrite Ef1. repeat split; auto. }
  (* normal operation *)
  destruct (zmem (d_type d) d_update_types); [|cbn [bind]; eauto].
  rewrite Ety. cbn [bind].
  assert (F1t : forall ty', get3 ty' (c_fi1t (p_ch T)) = true).
  { intros ty'. symmetry in F3. apply andb_prop in F3. destruct F3 as [F3 F3']. apply andb_prop in F3.
    destruct ty'; cbn; tauto. }
  assert (Key : forall k, let i := adv k ty in let fT := fcof k ty (p_ch T) in
     (negb (tx_is_infinite fT) || (dllp_val k d =? 0) = true) /\
     exists f, dllp_val k d = annd k i f /\ 0 <= f /\ chain (annd k i) f (fc_vals k ty back) (freed k ty rel 0 rx) /\
     (i = 0 \/ sum_credits k ty g <= i + f)).
  { intros k. specialize (d_fc0 k ty). cbv zeta in *.
    destruct d_fc0 as (P1 & P2 & P3 & P4 & P5 & P6 & f0 & Q1 & Q2 & Q3 & Q4).
    cbn [fc_vals flat_map] in Q2. unfold is_fc in Q2. rewrite Ety, fc_eqb_refl in Q2. cbn [app] in Q2.
    destruct Q2 as (f & R1 & R2 & R3). rewrite F1t in Q4. destruct Q4 as (Q4 & _).
    split.
    - unfold tx_is_infinite. rewrite Q4, R2. unfold annd. destruct (Z.eqb_spec (adv k ty) 0); reflexivity.
    - exists f. split; [exact R2|]. split; [lia|]. split; [exact R3|]. destruct Q3; [auto|right; lia]. }
  pose proof (proj1 (Key false)) as K0. pose proof (proj1 (Key true)) as K1.
  cbv zeta in K0, K1. unfold fcof, dllp_val in K0, K1. cbv iota in K0, K1.
  rewrite K0, K1. cbn [py_assert bind].
  eexists. split; [reflexivity|]. split.
  { constructor; try reflexivity. intros k ty'. cbn [p_ch set_p_ch]. rewrite fcof_on.
    destruct (fc_eqb ty' ty); [|reflexivity]. destruct k; reflexivity. }
  destruct Keep. constructor; cbn [p_next_tx p_retry p_ackd p_txq p_pend p_ch set_p_ch]; auto.
  intros k ty'. specialize (d_fc1 k ty'). cbv zeta in *. rewrite fcof_on.
  change (c_fi1t (on_credits ty _ _ ?c)) with (c_fi1t c).
  destruct (fc_eqb ty' ty) eqn:Et; [|exact d_fc1].
  apply fc_eqb_eq in Et. subst ty'. rewrite F1t in *.
  destruct d_fc1 as (P1 & P2 & P3 & P4 & P5 & P6 & f0 & Q1 & Q2 & Q3 & Q4 & Q5 & Q6).
  destruct (proj2 (Key k)) as (f & R1 & R2 & R3 & R4).
  set (fT := fcof k ty (p_ch T)) in *.
  replace ((if k then f_set_limit (d_data_fc d) else f_set_limit (d_hdr_fc d)) fT) with (f_set_limit (dllp_val k d) fT)
    by (destruct k; reflexivity).
  cbn [f_bits f_set_limit tx_init tx_limit tx_cons].
  do 6 (split; [assumption|]). exists f. do 4 (split; [assumption|]). split; assumption.
Qed.

(** ** Releasing and handling a received TLP *)
Lemma also_ge rel n m : (n < m)%nat -> rel m = false -> also rel n m = false.
Proof. intros H E. unfold also. rewrite E. cbn. apply Nat.eqb_neq. lia. Qed.
Lemma dir_release adv T R n out back g tx rx hd rel : (n < length rx)%nat ->
  dirinv adv T R out back g tx rx hd rel ->
  match rx_release_fc_token n (p_ch R) with
  | None => dirinv adv T R out back g tx rx hd (also rel n)
  | Some c => let R' := set_p_fc_timer true (set_p_ch c R) in
              teq R R' /\ dirinv adv T R' out back g tx rx hd (also rel n)
  end.
Proof.
  intros L I. pose proof I as I'. destruct I'. unfold rx_release_fc_token. rewrite d_rel0.
  assert (Crx : Forall classed rx).
  { destruct d_deliv0 as (x & -> & ->). destruct d_cls0 as (C & _). apply Forall_app in C. destruct C as [C _].
    clear - C. induction C; cbn; constructor; auto using classed_copy. }
  rewrite (rel_find_unreleased rel rx n 0 Crx) by lia.
  destruct (rel n) eqn:En.
  { eapply dir_rel; [|exact I]. intros m. unfold also. destruct (Nat.eqb_spec m n) as [->|]; [rewrite En|rewrite orb_false_r]; reflexivity. }
  destruct (nth_error rx (n - 0)) as [t|] eqn:Et; [|exfalso; apply nth_error_None in Et; lia].
  destruct (nth_error_forall _ _ _ _ Crx Et) as [ty Hty]. rewrite Hty.
  set (c := rx_release_fc _ _ _).
  assert (Hfc : forall k ty', fcof k ty' c = if fc_eqb ty' ty then
      (if k then f_rx_release (get_data_credits t) else f_rx_release 1) (fcof k ty' (p_ch R)) else fcof k ty' (p_ch R)).
  { intros k ty'. unfold c, rx_release_fc. rewrite fcof_on. destruct k; reflexivity. }
  assert (Hrl : c_rel c = filter (fun x => negb (Nat.eqb n (fst x))) (unreleased rel 0 rx)).
  { unfold c. cbn. rewrite <- d_rel0. reflexivity. }
  cbv zeta. split.
  { constructor; try reflexivity. intros k ty'. cbn [p_ch set_p_ch set_p_fc_timer]. rewrite Hfc.
    destruct (fc_eqb ty' ty); [|reflexivity]. destruct k; unfold f_rx_release; destruct rx_is_infinite; reflexivity. }
  constructor; cbn [p_next_rx p_nak p_rxq p_ch set_p_ch set_p_fc_timer]; auto.
  - rewrite unreleased_also. exact Hrl.
  - intros m Lm. apply also_ge; [lia|auto].
  - intros k ty'. specialize (d_fc0 k ty'). cbv zeta in *. rewrite Hfc. clearbody c.
    destruct d_fc0 as (P1 & P2 & P3 & P4 & P5 & P6 & f0 & Q1 & Q2 & Q3 & Q4).
    rewrite (freed_also k ty' rel n rx t 0 Et) by (auto; lia).
    set (m := if k then get_data_credits t else 1).
    assert (Cr : credits k ty' t = if fc_eqb ty' ty then m else 0)
      by (rewrite (credits_of k ty' t ty Hty); destruct k; reflexivity).
    pose proof (creds_nonneg k ty' t) as Hm. rewrite Cr in Hm |- *.
    destruct (fc_eqb ty' ty) eqn:E.
    2:{ rewrite Z.add_0_r. do 6 (split; [assumption|]). exists f0. auto. }
    set (fR := fcof k ty' (p_ch R)) in *.
    replace ((if k then f_rx_release (get_data_credits t) else f_rx_release 1) fR) with (f_rx_release m fR)
      by (unfold m; destruct k; reflexivity).
    assert (Hc : rxp (f_rx_release m fR) = (f_bits fR, rx_init fR, annd k (adv k ty') (freed k ty' rel 0 rx + m), rx_recv fR)).
    { unfold f_rx_release, rx_is_infinite, rxp. rewrite P4, P5. unfold f_mask. rewrite P3.
      destruct (Z.eqb_spec (adv k ty') 0) as [Z0|Z0].
      - rewrite P3, P4, P5. unfold annd. rewrite Z0. reflexivity.
      - unfold annd. destruct (Z.eqb_spec (adv k ty') 0); [contradiction|].
        rewrite land_mask, Zplus_mod_idemp_l, Z.add_assoc. reflexivity. }
    unfold rxp in Hc. injection Hc as -> -> -> ->.
    do 4 (split; [assumption|]). split; [reflexivity|]. split; [assumption|].
    exists f0. split; [assumption|]. split; [|split; assumption].
    eapply chain_upper; [exact Q2|lia].
Qed.
Lemma dir_handle adv T R n t r out back g tx rx hd rel : p_rxq R = (n, t) :: r ->
  dirinv adv T R out back g tx rx hd rel ->
  dirinv adv T (set_p_rxq r R) out back g tx rx (hd ++ [t]) rel.
Proof.
  intros E []. constructor; auto. rewrite E in d_hd0. cbn [p_rxq set_p_rxq].
  rewrite <- app_assoc. exact d_hd0.
Qed.
