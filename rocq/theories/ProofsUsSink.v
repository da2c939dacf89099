From Verif Require Import Base BaseProofs Bits ModelUtils ModelFrames ModelUsStream ModelChan SpecUsStream ProofsFields ProofsUsStream ProofsChan.

(** ** What the sink reads *)
Section Beat.
  Context (c : us_cfg) (G : good_cfg c) (l : list item) (F : Forall (it_ok c) l) (L : zlen l <= sg c).
  Context (b : beat) (Bd : tdata b = dors (items_data c 0 l)) (Bk : tkeep b = kors (items_data c 0 l)) (Bu : tuser b = uors c (items_named c 0 0 0 l)).

  Lemma ufield_read n m : nvalid c n -> m = Z.ones (nwid c n) -> ufield b (noff c n) m = usum n (items_named c 0 0 0 l).
  Proof. intros V ->. unfold ufield. rewrite Bu. exact (read_field c l n G F L V). Qed.
  Lemma ubit_read n : nvalid c n -> nwid c n = 1 -> ubit b (noff c n) = zbool (usum n (items_named c 0 0 0 l)).
  Proof.
    intros V W. destruct (npos c n G V) as (P & _). unfold ubit. rewrite land_pow by exact P. pose proof (read_field c l n G F L V) as R. rewrite W, rd_bit in R by exact P. rewrite Bu, <- R.
    destruct (Z.testbit _ _); reflexivity.
  Qed.
  Lemma disc_sum : forall l' seg sop eop, usum NDisc (items_named c seg sop eop l') = Z.b2z (existsb (fun i => us_disc (it_f i)) l').
  Proof.
    induction l' as [|i l' IH]; intros seg sop eop; [reflexivity|]. cbn [items_named existsb]. unfold usum in *. rewrite (sum_app name_eqb), IH. unfold item_named. rewrite !(sum_app name_eqb).
    rewrite (sum_none name_eqb name_eqb_ok _ (if it_first i then _ else _)), (sum_none name_eqb name_eqb_ok _ (lane_named _ _ _ _ _)), (sum_none name_eqb name_eqb_ok _ (if it_fin i then _ else _)).
    - destruct (us_disc (it_f i)), (existsb _ l'); reflexivity.
    - destruct (it_fin i); intros p P E; [|destruct P]. apply eop_named_in in P. destruct P as ([X|X] & _); rewrite X in E; discriminate.
    - intros p P E. unfold zrange in P. apply lane_named_in in P. destruct P as (k & _ & [X|(X & _)]); rewrite X in E; discriminate.
    - destruct (it_first i); intros p P E; [|destruct P]. apply sop_named_in in P. rewrite E in P. tauto.
  Qed.
  Lemma disc_read : ubit b (disc_off c) = existsb (fun i => us_disc (it_f i)) l.
  Proof. change (disc_off c) with (noff c NDisc). rewrite (ubit_read NDisc) by (exact Logic.I || reflexivity). rewrite disc_sum. destruct (existsb _ l); reflexivity. Qed.

  (** the fields of a new frame *)
  Definition part (f : us_frame) (o : Z) (d : bool) : us_frame :=
    mkUs (firstn (Z.to_nat o) (us_data f)) (if has_be c then firstn (Z.to_nat o) (us_byte_en f) else []) (firstn (Z.to_nat o) (us_parity f))
      (match kd c with Rq | Cq => us_first_be f | _ => 0 end) (match kd c with Rq | Cq => us_last_be f | _ => 0 end) d (match kd c with Rq => us_seq f | _ => 0 end).
  Lemma sop_read l1 i l2 n : l = l1 ++ i :: l2 -> it_first i = true ->
    match n with NFb k | NLb k => k = match kd c with Cq => zlen l1 | _ => nfirst l1 end | NSeq k => k = nfirst l1 | NSeqHi => sg c = 1 | _ => False end ->
    usum n (items_named c 0 0 0 l) = usum n (sop_named c (nfirst l1) (zlen l1) (it_f i)).
  Proof.
    intros E Fi N. destruct (seg_lanes_facts c G) as (_ & _ & SL & _). rewrite E. rewrite read_item.
    - unfold item_named, usum. rewrite Fi. rewrite !(sum_app name_eqb).
      rewrite (sum_none name_eqb name_eqb_ok _ (lane_named _ _ _ _ _)), (sum_none name_eqb name_eqb_ok _ (if it_fin i then _ else _)), (sum_none name_eqb name_eqb_ok _ (if us_disc _ then _ else _)).
      + rewrite !Z.lor_0_r. reflexivity.
      + destruct (us_disc (it_f i)); intros p P X; [|destruct P]. destruct P as [<-|[]]. cbn in X. subst n. destruct N.
      + destruct (it_fin i); intros p P X; [|destruct P]. apply eop_named_in in P. destruct P as ([Y|Y] & _); rewrite Y in X; subst n; destruct N.
      + intros p P X. unfold zrange in P. apply lane_named_in in P. destruct P as (k & _ & [Y|(Y & _)]); rewrite Y in X; subst n; destruct N.
    - exact SL.
    - rewrite Fi. unfold inc. destruct n; try contradiction; cbn [nin]; try exact Logic.I; destruct (kd c); lia.
    - destruct n; try discriminate. destruct N.
    - intros ->. rewrite E, zlen_app, zlen_cons in L. destruct l1 as [|x l1]; [|rewrite zlen_cons in L; pose proof (zlen_nonneg l1); pose proof (zlen_nonneg l2); lia].
      destruct l2 as [|x l2]; [split; reflexivity|]. rewrite zlen_cons in L. pose proof (zlen_nonneg l2). unfold zlen at 1 in L. cbn [length] in L. lia.
  Qed.
  Lemma land_id x w : 0 <= w -> 0 <= x < 2 ^ w -> Z.land x (Z.ones w) = x.
  Proof. intros Hw H. rewrite Z.land_ones by lia. apply Z.mod_small. exact H. Qed.
  Lemma seq_join x : 0 <= x < 64 -> Z.lor (Z.land x 15) (Z.shiftl (Z.land (Z.shiftr x 4) 3) 4) = x.
  Proof. intros H. bits. Qed.
  Lemma sum_hit n v l' : (forall p, In p l' -> fst p = n -> False) -> usum n ((n, v) :: l') = v.
  Proof.
    intros H. unfold usum. cbn [sum fold_right fst snd]. replace (name_eqb n n) with true by (symmetry; apply name_eqb_ok; reflexivity).
    fold (sum name_eqb n l'). rewrite (sum_none name_eqb name_eqb_ok) by (intros p P E; exact (H p P E)). apply Z.lor_0_r.
  Qed.
  Lemma new_read l1 i l2 : l = l1 ++ i :: l2 -> it_first i = true -> sink_new c b (nfirst l1) (zlen l1) = part (it_f i) 0 false.
  Proof.
    intros E Fi. assert (Oi : it_ok c i) by (rewrite Forall_forall in F; apply F; rewrite E; apply in_or_app; right; left; reflexivity). destruct Oi as (Gi & _ & _).
    pose proof (nfirst_bound l1) as N1. pose proof (zlen_nonneg l2) as N2. assert (N3 : zlen l1 + 1 <= sg c) by (rewrite E, zlen_app, zlen_cons in L; lia). pose proof (zlen_nonneg l1) as N0.
    assert (RD : forall n m, nvalid c n -> m = Z.ones (nwid c n) ->
      match n with NFb k | NLb k => k = match kd c with Cq => zlen l1 | _ => nfirst l1 end | NSeq k => k = nfirst l1 | NSeqHi => sg c = 1 | _ => False end ->
      ufield b (noff c n) m = usum n (sop_named c (nfirst l1) (zlen l1) (it_f i))).
    { intros n m V M H. rewrite (ufield_read n m V M). apply (sop_read l1 i l2 n E Fi H). }
    pose proof (gf_fb _ _ Gi) as B. pose proof (gf_seq _ _ Gi) as Q. fold (w512 c) in Q.
    unfold sink_new, part, has_be. destruct (kd c) eqn:K; [| |destruct (w512 c) eqn:W|reflexivity].
    - destruct (w512 c) eqn:W.
      + pose proof (RD (NFb (nfirst l1)) 15) as R1. pose proof (RD (NLb (nfirst l1)) 15) as R2. pose proof (RD (NSeq (nfirst l1)) 63) as R3. unfold noff, nwid, nvalid in *. rewrite ?K, ?W in *.
        rewrite R1, R2, R3; try reflexivity; try lia. unfold sop_named. rewrite K, W.
        unfold usum. cbn [sum fold_right fst snd name_eqb]. rewrite !Z.eqb_refl, !Z.lor_0_l, !Z.lor_0_r. cbn [Z.to_nat firstn]. cbn [orb] in Q.
        rewrite (land_id _ 4), (land_id _ 4), (land_id _ 6) by (try exact (proj1 B); try exact (proj2 B); try exact Q; lia). reflexivity.
      + pose proof (RD (NFb (nfirst l1)) 15) as R1. pose proof (RD (NLb (nfirst l1)) 15) as R2. pose proof (RD (NSeq (nfirst l1)) 15) as R3. pose proof (RD NSeqHi 3) as R4. unfold noff, nwid, nvalid in *. rewrite ?K, ?W in *.
        assert (S1 : sg c = 1) by (destruct (cfg_cases c G) as [(W' & _)|(_ & _ & [S|(S & _)])]; congruence).
        rewrite R1, R2, R3; try reflexivity; try lia. unfold sop_named in *. rewrite K, W in *. cbn [orb] in Q.
        destruct (Z.eqb_spec (tuw c) 62) as [T|T].
        * rewrite R4; try reflexivity; try lia. unfold usum. cbn [app sum fold_right fst snd name_eqb]. rewrite !Z.eqb_refl, !Z.lor_0_l, !Z.lor_0_r. cbn [Z.to_nat firstn].
          rewrite seq_join by exact Q. rewrite (land_id _ 4), (land_id _ 4) by (try exact (proj1 B); try exact (proj2 B); lia). reflexivity.
        * unfold usum. cbn [app sum fold_right fst snd name_eqb]. rewrite !Z.eqb_refl, !Z.lor_0_l, !Z.lor_0_r. cbn [Z.to_nat firstn].
          rewrite (land_id _ 4), (land_id _ 4), (land_id _ 4) by (try exact (proj1 B); try exact (proj2 B); try exact Q; lia). reflexivity.
    - reflexivity.
    - pose proof (RD (NFb (zlen l1)) 15) as R1. pose proof (RD (NLb (zlen l1)) 15) as R2. unfold noff, nwid, nvalid in *. rewrite ?K, ?W in *.
      rewrite R1, R2; try reflexivity; try lia. unfold sop_named. rewrite K, W. unfold usum. cbn [sum fold_right fst snd name_eqb]. rewrite !Z.eqb_refl, !Z.lor_0_l, !Z.lor_0_r. cbn [Z.to_nat firstn].
      rewrite (land_id _ 4), (land_id _ 4) by (try exact (proj1 B); try exact (proj2 B); lia). reflexivity.
    - pose proof (RD (NFb (zlen l1)) 15) as R1. pose proof (RD (NLb (zlen l1)) 15) as R2. unfold noff, nwid, nvalid in *. rewrite ?K, ?W in *.
      rewrite R1, R2; try reflexivity; try lia. unfold sop_named. rewrite K, W. unfold usum. cbn [sum fold_right fst snd name_eqb]. rewrite !Z.eqb_refl, !Z.lor_0_l, !Z.lor_0_r. cbn [Z.to_nat firstn].
      rewrite (land_id _ 4), (land_id _ 4) by (try exact (proj1 B); try exact (proj2 B); lia). reflexivity.
  Qed.

  (** the lanes of an item *)
  Lemma firstn_at (x : list Z) o : 0 <= o < zlen x -> firstn (Z.to_nat (o + 1)) x = firstn (Z.to_nat o) x ++ [at_of x o].
  Proof.
    intros H. unfold at_of. replace (Z.to_nat (o + 1)) with (S (Z.to_nat o)) by lia. assert (K : (Z.to_nat o < length x)%nat) by (unfold zlen in H; lia). clear H. revert K. generalize (Z.to_nat o) as n.
    induction x as [|y x IH]; intros n K; cbn [length] in K; [lia|]. destruct n as [|n]; [reflexivity|]. cbn [firstn nth app]. f_equal. apply IH. lia.
  Qed.
  Lemma sink_lanes_part l1 i l2 valid d : l = l1 ++ i :: l2 -> (forall k, 0 <= k < seg_lanes c -> bit_of valid (k + zlen l1 * seg_lanes c) = (k <? it_cnt i)) ->
    forall n a, Z.of_nat a + Z.of_nat n <= seg_lanes c ->
    sink_lanes c b valid (zlen l1) (map Z.of_nat (List.seq a n)) (Some (part (it_f i) (it_off i + Z.min (Z.of_nat a) (it_cnt i)) d)) =
    Ok (Some (part (it_f i) (it_off i + Z.min (Z.of_nat a + Z.of_nat n) (it_cnt i)) d)).
  Proof.
    intros E V. assert (Oi : it_ok c i) by (rewrite Forall_forall in F; apply F; rewrite E; apply in_or_app; right; left; reflexivity). destruct Oi as (Gi & Ho & Hc).
    destruct (seg_lanes_facts c G) as (_ & S2 & SL & _). assert (N3 : zlen l1 + 1 <= sg c) by (rewrite E, zlen_app, zlen_cons in L; pose proof (zlen_nonneg l2); lia). pose proof (zlen_nonneg l1) as N0.
    induction n as [|n IH]; intros a Ha; [cbn [List.seq map sink_lanes]; do 4 f_equal; lia|]. cbn [List.seq map sink_lanes]. rewrite V by lia.
    destruct (Z.ltb_spec (Z.of_nat a) (it_cnt i)) as [H|H].
    - replace (Z.min (Z.of_nat a) (it_cnt i)) with (Z.of_nat a) by lia.
      assert (LV : 0 <= Z.of_nat a + zlen l1 * seg_lanes c < lanes c) by nia.
      assert (X : sink_lane c b (Z.of_nat a + zlen l1 * seg_lanes c) (Some (part (it_f i) (it_off i + Z.of_nat a) d)) = Ok (Some (part (it_f i) (it_off i + Z.min (Z.of_nat (S a)) (it_cnt i)) d))).
      { unfold sink_lane. replace (Z.min (Z.of_nat (S a)) (it_cnt i)) with (Z.of_nat a + 1) by lia. unfold part. cbn [us_data us_byte_en us_parity us_first_be us_last_be us_disc us_seq].
        rewrite Bd, E. assert (F' : Forall (it_ok c) (l1 ++ i :: l2)) by (rewrite <- E; exact F). destruct (read_data c l1 i l2 (Z.of_nat a) SL F' ltac:(lia)) as (R & _). cbv zeta in R. rewrite R by lia.
        rewrite Z.add_assoc. rewrite <- !firstn_at by (unfold zlen in *; rewrite ?(gf_par_len _ _ Gi); lia).
        assert (P : ufield b ((Z.of_nat a + zlen l1 * seg_lanes c) * 4 + par_off c) 15 = at_of (us_parity (it_f i)) (it_off i + Z.of_nat a)).
        { pose proof (ufield_read (NPar (Z.of_nat a + zlen l1 * seg_lanes c)) 15 LV eq_refl) as Y. cbn [noff] in Y. rewrite Y, E.
          rewrite read_item by (try exact SL; try discriminate; cbn [nin]; nia). rewrite item_read_lane by exact Logic.I. unfold zrange. rewrite lane_read_par by lia. f_equal. lia. }
        rewrite P. rewrite <- firstn_at by (unfold zlen in *; rewrite (gf_par_len _ _ Gi); lia).
        assert (BE : (if has_be c then firstn (Z.to_nat (it_off i + Z.of_nat a)) (us_byte_en (it_f i)) else []) ++ match be_off c with Some o => [ufield b ((Z.of_nat a + zlen l1 * seg_lanes c) * 4 + o) 15] | None => [] end =
                     if has_be c then firstn (Z.to_nat (it_off i + Z.of_nat a + 1)) (us_byte_en (it_f i)) else []).
        { destruct (has_be c) eqn:HB; [|unfold has_be, be_off in *; destruct (kd c); try discriminate; reflexivity].
          assert (VB : nvalid c (NBe (Z.of_nat a + zlen l1 * seg_lanes c))) by (cbn [nvalid]; split; [exact LV|unfold has_be in HB; destruct (kd c); try discriminate; exact Logic.I]).
          pose proof (ufield_read (NBe (Z.of_nat a + zlen l1 * seg_lanes c)) 15 VB eq_refl) as Y. cbn [noff] in Y.
          rewrite E, read_item in Y by (try exact SL; try discriminate; cbn [nin]; nia). rewrite item_read_lane in Y by exact Logic.I. unfold zrange in Y. rewrite (lane_read_be c _ _ _ HB) in Y by lia.
          change (Z.of_nat 0) with 0 in Y. rewrite Z.sub_0_r in Y. pose proof (gf_be _ _ Gi) as GB.
          assert (LB : length (us_byte_en (it_f i)) = length (us_data (it_f i))) by (unfold has_be in HB; destruct (kd c); try discriminate; tauto).
          destruct (be_off c) as [o|] eqn:BO; [|unfold has_be, be_off in *; destruct (kd c); discriminate]. rewrite Y. rewrite <- firstn_at by (unfold zlen in *; rewrite LB; lia). reflexivity. }
        rewrite BE. reflexivity. }
      rewrite X. cbn [bind]. rewrite IH by lia. do 4 f_equal. lia.
    - cbn [bind]. replace (Z.min (Z.of_nat a) (it_cnt i)) with (Z.min (Z.of_nat (S a)) (it_cnt i)) by lia. rewrite IH by lia. do 4 f_equal. lia.
  Qed.
End Beat.

(** ** The masks of a beat with several segments *)
Definition desc := (bool * Z * bool)%type.
Definition desc_of (i : item) : desc := (it_first i, it_cnt i, it_fin i).
Fixpoint ctl (sl seg sop eop : Z) (ds : list desc) : list (name * Z) :=
  match ds with
  | [] => []
  | (fi, cn, fn) :: ds =>
    (if fi then [(NSop sop, 1); (NPtr sop, seg * sl / 4)] else []) ++ (if fn then [(NEop eop, 1); (NEptr eop, cn - 1 + seg * sl)] else []) ++ ctl sl (seg + 1) (inc fi sop) (inc fn eop) ds
  end.
Definition is_ctl (c : us_cfg) (n : name) : bool := match n with NSop _ | NEop _ | NEptr _ => true | NPtr _ => w512 c | _ => false end.
Lemma ctl_sum c n : (w512 c = true \/ kd c = Rc) -> is_ctl c n = true -> forall l seg sop eop, usum n (items_named c seg sop eop l) = usum n (ctl (seg_lanes c) seg sop eop (map desc_of l)).
Proof.
  intros K N. induction l as [|i l IH]; intros seg sop eop; [reflexivity|]. cbn [items_named map desc_of ctl]. unfold usum in *. rewrite !(sum_app name_eqb), IH, Z.lor_assoc. f_equal.
  unfold item_named. rewrite !(sum_app name_eqb).
  rewrite (sum_none name_eqb name_eqb_ok _ (lane_named _ _ _ _ _)), (sum_none name_eqb name_eqb_ok _ (if us_disc _ then _ else _)).
  - rewrite !Z.lor_0_l. f_equal.
    + destruct (it_first i); [|reflexivity]. unfold sop_named. destruct n; try discriminate N; destruct (kd c) eqn:E, (w512 c) eqn:W; try (destruct K; discriminate); try reflexivity; cbn in N; rewrite ?W in N; try discriminate N;
        unfold sum; cbn [app fold_right fst snd name_eqb]; rewrite ?Z.lor_0_l, ?Z.lor_0_r; reflexivity.
    + destruct (it_fin i); [|reflexivity]. unfold eop_named. destruct (w512 c), (kd c); try reflexivity; destruct K; discriminate.
  - destruct (us_disc (it_f i)); intros p P E; [|destruct P]. destruct P as [<-|[]]. cbn in E. subst n. discriminate N.
  - intros p P E. unfold zrange in P. apply lane_named_in in P. destruct P as (k & _ & [X|(X & _)]); rewrite X in E; subst n; discriminate N.
Qed.
Definition sop_s (w : bool) (n : Z) (fr : bool) (g : name -> Z) : Z :=
  if w then fold_left (fun m k => if zbool (g (NSop k)) then Z.lor m (Z.shiftl 1 (g (NPtr k) * 4)) else m) (zrange n) 0
  else let m := if zbool (g (NSop 0)) then Z.shiftl 1 (if fr then 4 else 0) else 0 in if zbool (g (NSop 1)) then Z.lor m (Z.shiftl 1 4) else m.
Definition eop_s (n : Z) (g : name -> Z) : Z := fold_left (fun m k => if zbool (g (NEop k)) then Z.lor m (Z.shiftl 1 (g (NEptr k))) else m) (zrange n) 0.
Lemma fold_ext {A B} (f g : A -> B -> A) l : (forall a x, In x l -> f a x = g a x) -> forall a, fold_left f l a = fold_left g l a.
Proof. induction l as [|x l IH]; intros H a; [reflexivity|]. cbn [fold_left]. rewrite H by (left; reflexivity). apply IH. intros a' y Y. apply H. right. exact Y. Qed.
Lemma in_zrange n k : In k (zrange n) -> 0 <= k < n.
Proof. unfold zrange. intros H. apply in_map_iff in H. destruct H as (j & <- & H). apply in_seq in H. lia. Qed.
Lemma sop_lanes_s c l b fr : good_cfg c -> Forall (it_ok c) l -> zlen l <= sg c -> tuser b = uors c (items_named c 0 0 0 l) -> sg c <> 1 ->
  let g n := usum n (ctl (seg_lanes c) 0 0 0 (map desc_of l)) in
  sop_lanes c fr b = sop_s (w512 c) (sg c) fr g /\ eop_lanes c b = eop_s (sg c) g.
Proof.
  intros G F L U S g. assert (K : w512 c = true \/ kd c = Rc) by (destruct (cfg_cases c G) as [(W & _)|(_ & _ & [X|(X & _)])]; tauto).
  assert (R1 : forall k, 0 <= k < sg c -> ubit b (noff c (NSop k)) = zbool (g (NSop k))).
  { intros k Hk. rewrite (ubit_read c G l F L b U) by (try reflexivity; cbn [nvalid]; destruct (w512 c), K; try discriminate; rewrite ?H; tauto). unfold g. rewrite (ctl_sum c) by (try reflexivity; exact K). reflexivity. }
  assert (R2 : forall k, 0 <= k < sg c -> ubit b (noff c (NEop k)) = zbool (g (NEop k))).
  { intros k Hk. rewrite (ubit_read c G l F L b U) by (try reflexivity; cbn [nvalid]; destruct (w512 c), K; try discriminate; rewrite ?H; tauto). unfold g. rewrite (ctl_sum c) by (try reflexivity; exact K). reflexivity. }
  assert (R3 : forall k m, 0 <= k < sg c -> m = Z.ones (nwid c (NEptr k)) -> ufield b (noff c (NEptr k)) m = g (NEptr k)).
  { intros k m Hk M. rewrite (ufield_read c G l F L b U) by (try exact M; cbn [nvalid]; destruct (w512 c), K; try discriminate; rewrite ?H; tauto). unfold g. rewrite (ctl_sum c) by (try reflexivity; exact K). reflexivity. }
  assert (R4 : forall k, w512 c = true -> 0 <= k < sg c -> ufield b (noff c (NPtr k)) 3 = g (NPtr k)).
  { intros k W Hk. rewrite (ufield_read c G l F L b U) by (try reflexivity; cbn [nvalid]; rewrite W; tauto). unfold g. rewrite (ctl_sum c) by (try exact K; cbn; exact W). reflexivity. }
  clearbody g. unfold sop_lanes, eop_lanes, sop_s, eop_s. unfold noff, nwid in R1, R2, R3, R4. destruct (w512 c) eqn:W.
  - unfold sop_at. destruct (kd c); split; apply fold_ext; intros a k Hk; apply in_zrange in Hk; rewrite ?(R1 k Hk), ?(R2 k Hk), ?(R3 k 15 Hk eq_refl), ?(R4 k eq_refl Hk); reflexivity.
  - destruct K as [K|K]; [discriminate|]. assert (S2 : sg c = 2) by (destruct (cfg_cases c G) as [(W' & _)|(_ & _ & [X|(_ & _ & X)])]; congruence). rewrite K in *. split.
    + rewrite <- (R1 0), <- (R1 1) by lia. reflexivity.
    + apply fold_ext. intros a k Hk. apply in_zrange in Hk. rewrite (R2 k Hk), (R3 k 7 Hk eq_refl). reflexivity.
Qed.
(** all shapes of a beat *)
Fixpoint all_ds (sl : Z) (n : nat) (first : bool) : list (list desc) :=
  match n with
  | O => [[]]
  | S n =>
    (if first then [[]] else []) ++ flat_map (fun k => map (cons (first, k + 1, true)) (all_ds sl n true)) (zrange sl) ++ map (cons (first, sl, false)) (all_ds sl n false)
  end.
Definition seg_check (m : scan) (sl s : Z) (d : option desc) : bool :=
  match d with
  | Some (fi, cn, fn) => bit_of (seg_valid m) s && Bool.eqb (bit_of (seg_sop m) s) fi && Bool.eqb (bit_of (seg_eop m) s) fn &&
      forallb (fun k => Bool.eqb (bit_of (lane_valid m) (k + s * sl)) (k <? cn)) (zrange sl)
  | None => negb (bit_of (seg_valid m) s)
  end.
Definition beat_check (c0 : us_cfg) (fr : bool) (ds : list desc) : bool :=
  match ds with
  | [] => true
  | _ =>
    let sl := seg_lanes c0 in let cs := ctl sl 0 0 0 ds in let g n := usum n cs in
    let m := scan_lanes c0 (sop_s (w512 c0) (sg c0) fr g) (eop_s (sg c0) g) in
    forallb (fun s => seg_check m sl s (nth_error ds (Z.to_nat s))) (zrange (sg c0))
  end.
Definition all_check (c0 : us_cfg) (fr : bool) : bool := forallb (beat_check c0 fr) (all_ds (seg_lanes c0) (Z.to_nat (sg c0)) (negb fr)).
Lemma check_512_2 fr : all_check (mkUsCfg Rq 512 2 0) fr = true. Proof. destruct fr; vm_compute; reflexivity. Qed.
Lemma check_512_4 fr : all_check (mkUsCfg Rc 512 4 0) fr = true. Proof. destruct fr; vm_compute; reflexivity. Qed.
Lemma check_256_2 fr : all_check (mkUsCfg Rc 256 2 0) fr = true. Proof. destruct fr; vm_compute; reflexivity. Qed.
Lemma beat_check_same c k t fr ds : beat_check c fr ds = beat_check (mkUsCfg k (wd c) (sg c) t) fr ds.
Proof. destruct c. reflexivity. Qed.
Definition cur_first (cur : option (us_frame * Z)) : bool := match cur with None => true | Some (_, o) => o =? 0 end.
Lemma plan_ds c : 1 <= seg_lanes c -> forall n cur q, cur_ok c cur -> Forall (good_frame c) q ->
  let '(l, _, _) := plan (seg_lanes c) n cur q in In (map desc_of l) (all_ds (seg_lanes c) n (cur_first cur)) /\ Forall (it_ok c) l /\ zlen l <= Z.of_nat n.
Proof.
  intros SL. induction n as [|n IH]; intros cur q C Q; cbn [plan]; [split; [left; reflexivity|]; split; [constructor|cbn; lia]|].
  destruct (src_next_plan c cur q C Q) as (_ & P). destruct (pnext cur q) as [((f & o) & q1)|] eqn:N.
  - destruct (P f o q1 eq_refl) as (Gf & Ho & Q1). clear P. set (i := mkItem f o (Z.min (seg_lanes c) (zlen (us_data f) - o))).
    assert (Fi : it_first i = cur_first cur).
    { unfold it_first. cbn [it_off i]. destruct cur as [(f' & o')|]; cbn in N |- *; [injection N as <- <- <-; reflexivity|]. destruct q; [discriminate|]. injection N as <- <- <-. reflexivity. }
    assert (Oi : it_ok c i) by (split; [exact Gf|]; split; [exact Ho|reflexivity]).
    assert (C' : cur_ok c (if it_fin i then None else Some (f, o + it_cnt i))).
    { destruct (it_fin i) eqn:Fn; [exact Logic.I|]. unfold it_fin in Fn. cbn [it_off it_cnt it_f i] in Fn. split; [exact Gf|]. cbn [it_cnt i]. lia. }
    specialize (IH _ q1 C' Q1). destruct (plan (seg_lanes c) n (if it_fin i then None else Some (f, o + it_cnt i)) q1) as ((l & cur') & q'). destruct IH as (I1 & I2 & I3).
    split; [|split; [constructor; assumption|rewrite zlen_cons; lia]]. cbn [map all_ds]. apply in_or_app. right. apply in_or_app. change (desc_of i) with (it_first i, it_cnt i, it_fin i). rewrite Fi.
    destruct (it_fin i) eqn:Fn.
    + left. apply in_flat_map. exists (it_cnt i - 1). split.
      * unfold zrange. apply in_map_iff. exists (Z.to_nat (it_cnt i - 1)). cbn [it_cnt i]. split; [lia|]. apply in_seq. lia.
      * replace (it_cnt i - 1 + 1) with (it_cnt i) by lia. apply in_map. exact I1.
    + right. unfold it_fin in Fn. cbn [it_off it_cnt it_f i] in Fn. replace (it_cnt i) with (seg_lanes c) in * by (cbn [it_cnt i]; lia). apply in_map.
      replace (cur_first (Some (f, o + seg_lanes c))) with false in I1 by (cbn [cur_first]; lia). exact I1.
  - split; [|split; [constructor|cbn; lia]]. cbn [map all_ds]. destruct cur as [(f' & o')|]; [discriminate|]. left. reflexivity.
Qed.
(** What the sink needs of the masks *)
Definition masks_ok (c : us_cfg) (l : list item) (m : scan) : Prop := forall s, (s < Z.to_nat (sg c))%nat ->
  match nth_error l s with
  | Some i => bit_of (seg_valid m) (Z.of_nat s) = true /\ bit_of (seg_sop m) (Z.of_nat s) = it_first i /\ bit_of (seg_eop m) (Z.of_nat s) = it_fin i /\
      forall k, 0 <= k < seg_lanes c -> bit_of (lane_valid m) (k + Z.of_nat s * seg_lanes c) = (k <? it_cnt i)
  | None => bit_of (seg_valid m) (Z.of_nat s) = false
  end.
Lemma zrange_in n k : 0 <= k < n -> In k (zrange n).
Proof. intros H. unfold zrange. apply in_map_iff. exists (Z.to_nat k). split; [lia|]. apply in_seq. lia. Qed.
Lemma masks_many c cur q l cur' q' b fr : good_cfg c -> sg c <> 1 -> cur_ok c cur -> Forall (good_frame c) q -> plan (seg_lanes c) (Z.to_nat (sg c)) cur q = (l, cur', q') -> l <> [] ->
  tuser b = uors c (items_named c 0 0 0 l) -> (w512 c = true \/ match fr with None => true | _ => false end = cur_first cur) -> masks_ok c l (masks c fr b).
Proof.
  intros G S C Q P NE U FR. destruct (seg_lanes_facts c G) as (S1 & S2 & SL & _). pose proof (plan_ds c SL (Z.to_nat (sg c)) cur q C Q) as D. rewrite P in D. destruct D as (D & F & LL).
  set (frb := match fr with None => false | _ => true end).
  assert (CK : beat_check c (negb (cur_first cur)) (map desc_of l) = true).
  { assert (X : forall c0 : us_cfg, wd c0 = wd c -> sg c0 = sg c -> all_check c0 (negb (cur_first cur)) = true -> beat_check c (negb (cur_first cur)) (map desc_of l) = true).
    { intros c0 W0 G0 H. unfold all_check in H. rewrite forallb_forall in H. rewrite negb_involutive in H. specialize (H (map desc_of l)).
      assert (SE : seg_lanes c0 = seg_lanes c) by (unfold seg_lanes, lanes; rewrite W0, G0; reflexivity). rewrite SE, G0 in H. specialize (H D).
      rewrite (beat_check_same c (kd c0) (tuw c0)). rewrite <- W0, <- G0. destruct c0. exact H. }
    destruct (cfg_cases c G) as [(_ & W & _ & [SS|[SS|(_ & SS)]])|(_ & _ & [SS|(_ & W & SS)])]; try contradiction.
    - apply (X (mkUsCfg Rq 512 2 0)); [symmetry; exact W|symmetry; exact SS|apply check_512_2].
    - apply (X (mkUsCfg Rc 512 4 0)); [symmetry; exact W|symmetry; exact SS|apply check_512_4].
    - apply (X (mkUsCfg Rc 256 2 0)); [symmetry; exact W|symmetry; exact SS|apply check_256_2]. }
  assert (M : masks c fr b = scan_lanes c (sop_lanes c frb b) (eop_lanes c b)).
  { unfold masks. replace (sg c =? 1) with false by lia. replace (straddle c) with true; [reflexivity|]. unfold straddle, w512.
    destruct (cfg_cases c G) as [(_ & W & _)|(_ & _ & [SS|(K & W & SS)])]; [rewrite W; destruct (kd c); reflexivity|contradiction|rewrite K, W; reflexivity]. }
  destruct (sop_lanes_s c l b frb G F ltac:(lia) U S) as (E1 & E2). rewrite M, E1, E2. clear M E1 E2.
  replace (sop_s (w512 c) (sg c) frb) with (sop_s (w512 c) (sg c) (negb (cur_first cur))).
  2:{ destruct FR as [W|FR]; [rewrite W; reflexivity|]. f_equal. unfold frb. rewrite <- FR. destruct fr; reflexivity. }
  unfold beat_check in CK. destruct (map desc_of l) as [|d0 ds] eqn:E; [destruct l; [contradiction|discriminate]|]. rewrite <- E in *. clear d0 ds E.
  cbv zeta in CK. match type of CK with forallb (fun s => seg_check ?mm _ _ _) _ = true => set (m := mm) in * end.
  match goal with |- masks_ok c l ?mm => change mm with m end. clearbody m. rewrite forallb_forall in CK.
  intros s Hs. specialize (CK (Z.of_nat s) (zrange_in (sg c) (Z.of_nat s) ltac:(lia))). rewrite Nat2Z.id, nth_error_map in CK. destruct (nth_error l s) as [i|]; cbn [option_map] in CK.
  - unfold seg_check, desc_of in CK. rewrite !andb_true_iff, forallb_forall in CK. destruct CK as (((K1 & K2) & K3) & K4). apply eqb_prop in K2. apply eqb_prop in K3. split; [exact K1|]. split; [exact K2|]. split; [exact K3|].
    intros k Hk. specialize (K4 k (zrange_in _ _ Hk)). apply eqb_prop in K4. exact K4.
  - unfold seg_check in CK. apply negb_true_iff. exact CK.
Qed.

(** ** One beat through the sink *)
Definition dok (ex : Prop) (f : us_frame) (d : bool) : Prop := (us_disc f = true -> d = true) /\ (ex -> d = us_disc f).
(** [fr] is where the sink should be when the source is at [cur]. *)
Definition sync (ex : Prop) (c : us_cfg) (cur : option (us_frame * Z)) (fr : option us_frame) : Prop :=
  match cur with
  | None => fr = None \/ (kd c <> Rc /\ fr = Some us_frame0)
  | Some (f, o) => 0 < o < zlen (us_data f) /\ exists d, fr = Some (part c f o d) /\ dok ex f d
  end.
Definition rcv (ex : Prop) (c : us_cfg) (f g : us_frame) : Prop := exists d, g = with_disc d (carried_frame c f) /\ dok ex f d.
Definition finished (l : list item) : list us_frame := map it_f (filter it_fin l).
Lemma masks_one c i b fr cur ex : good_cfg c -> sg c = 1 -> it_ok c i -> tkeep b = kors (items_data c 0 [i]) -> tlast b = (if it_fin i then 1 else 0) ->
  sync ex c cur fr -> it_first i = cur_first cur -> masks_ok c [i] (masks c fr b).
Proof.
  intros G S O K T Y Fi s Hs. rewrite S in Hs. assert (s = 0%nat) by (change (Z.to_nat 1) with 1%nat in Hs; lia). subst s. cbn [nth_error]. unfold masks. rewrite S. cbn [Z.eqb Pos.eqb seg_valid seg_sop seg_eop lane_valid].
  split; [reflexivity|]. split; [|split].
  - rewrite Fi. destruct cur as [(f & o)|]; cbn [cur_first sync] in *.
    + destruct Y as (Ho & d & -> & _). replace (o =? 0) with false by lia. replace (zlen (us_data (part c f o d)) =? 0) with false; [reflexivity|]. unfold part, zlen in *. cbn [us_data]. rewrite firstn_length. lia.
    + destruct Y as [->|(_ & ->)]; reflexivity.
  - rewrite T. destruct (it_fin i); reflexivity.
  - intros k Hk. rewrite K. destruct (seg_lanes_facts c G) as (_ & _ & SL & _). apply (read_data c [] i [] k SL); [constructor; [exact O|constructor]|exact Hk].
Qed.
Lemma sink_none c b m l : masks_ok c l m -> forall n a sop fr, (length l <= a)%nat -> (a + n = Z.to_nat (sg c))%nat -> sink_segs c b m (map Z.of_nat (List.seq a n)) sop fr = Ok (fr, []).
Proof.
  intros M. induction n as [|n IH]; intros a sop fr La Ha; [reflexivity|]. cbn [List.seq map sink_segs]. specialize (M a ltac:(lia)). rewrite (proj2 (nth_error_None l a) La) in M. rewrite M. apply IH; lia.
Qed.
Lemma part_full c f d : good_frame c f -> part c f (zlen (us_data f)) d = with_disc d (carried_frame c f).
Proof.
  intros Gf. unfold part, with_disc, carried_frame, zlen, has_be. rewrite Nat2Z.id. cbn [us_data us_byte_en us_parity us_first_be us_last_be us_seq]. rewrite firstn_all. rewrite (firstn_all2 (us_parity f)) by (rewrite (gf_par_len _ _ Gf); lia).
  pose proof (gf_be _ _ Gf) as B. destruct (kd c); try reflexivity; rewrite (firstn_all2 (us_byte_en f)) by (rewrite (proj1 B); lia); reflexivity.
Qed.
Section Sink.
  Context (c : us_cfg) (G : good_cfg c) (l : list item) (F : Forall (it_ok c) l) (L : zlen l <= sg c).
  Context (b : beat) (Bd : tdata b = dors (items_data c 0 l)) (Bu : tuser b = uors c (items_named c 0 0 0 l)).
  Context (m : scan) (M : masks_ok c l m).
  Context (ex : Prop) (EX : ex -> forall i, In i l -> us_disc (it_f i) = existsb (fun i => us_disc (it_f i)) l).
  Lemma sink_segs_ok : forall n l1 l2 cur q cur' q' fr, plan (seg_lanes c) n cur q = (l2, cur', q') -> l = l1 ++ l2 -> (length l1 + n = Z.to_nat (sg c))%nat ->
    cur_ok c cur -> Forall (good_frame c) q -> sync ex c cur fr ->
    exists fr' sunk, sink_segs c b m (map Z.of_nat (List.seq (length l1) n)) (nfirst l1) fr = Ok (fr', sunk) /\ sync ex c cur' fr' /\ Forall2 (rcv ex c) (finished l2) sunk.
  Proof.
    destruct (seg_lanes_facts c G) as (S1 & S2 & SL & _).
    induction n as [|n IH]; intros l1 l2 cur q cur' q' fr P E Hn C Q Y.
    - cbn [plan] in P. injection P as <- <- <-. exists fr, []. split; [reflexivity|]. split; [exact Y|constructor].
    - cbn [plan] in P. destruct (src_next_plan c cur q C Q) as (_ & PP). destruct (pnext cur q) as [((f & o) & q1)|] eqn:N.
      2:{ injection P as <- <- <-. rewrite app_nil_r in E. subst l1. exists fr, []. split; [apply (sink_none c b m l M); lia|]. split; [|constructor].
          destruct cur as [x|]; [discriminate N|]. exact Y. }
      destruct (PP f o q1 eq_refl) as (Gf & Ho & Q1). clear PP. set (i := mkItem f o (Z.min (seg_lanes c) (zlen (us_data f) - o))) in *.
      assert (Fi : it_first i = cur_first cur).
      { unfold it_first. cbn [it_off i]. destruct cur as [(f' & o')|]; cbn in N |- *; [injection N as <- <- <-; reflexivity|]. destruct q; [discriminate|]. injection N as <- <- <-. reflexivity. }
      assert (C' : cur_ok c (if it_fin i then None else Some (f, o + it_cnt i))).
      { destruct (it_fin i) eqn:Fn; [exact Logic.I|]. unfold it_fin in Fn. cbn [it_off it_cnt it_f i] in Fn. split; [exact Gf|]. cbn [it_cnt i]. lia. }
      destruct (plan (seg_lanes c) n (if it_fin i then None else Some (f, o + it_cnt i)) q1) as ((l2' & cur1) & q2) eqn:PE. injection P as <- <- <-.
      pose proof (M (length l1) ltac:(lia)) as MK. rewrite E, nth_error_app2, Nat.sub_diag in MK by lia. cbn [nth_error] in MK. destruct MK as (M1 & M2 & M3 & M4). fold (zlen l1) in M1, M2, M3, M4.
      cbn [List.seq map sink_segs]. fold (zlen l1). rewrite M1, M2.
      assert (ZP : forall (x : bool) f1, (match (if x then Some f1 else fr) with Some _ => True | None => True end)) by (intros [] ?; [exact Logic.I|destruct fr; exact Logic.I]). clear ZP.
      (* the frame before the lanes *)
      assert (ST : exists d, (if it_first i then Some (sink_new c b (nfirst l1) (zlen l1)) else fr) = Some (part c f o d) /\ (it_first i = true -> d = false) /\ (it_first i = false -> dok ex f d)).
      { destruct (it_first i) eqn:F1.
        - exists false. rewrite (new_read c G l F L b Bu l1 i l2' E F1). cbn [it_f i]. unfold it_first in F1. cbn [it_off i] in F1. replace o with 0 by lia. split; [reflexivity|]. split; [reflexivity|discriminate].
        - destruct cur as [(f' & o')|]; [|discriminate Fi]. cbn in N. injection N as -> -> ->. cbn [sync] in Y. destruct Y as (_ & d & -> & D). exists d. split; [reflexivity|]. split; [discriminate|intros _; exact D]. }
      destruct ST as (d & -> & Dt & Df). rewrite (disc_read c G l F L b Bu).
      assert (DD : exists d', (if existsb (fun i0 => us_disc (it_f i0)) l then sink_disc (Some (part c f o d)) else Ok (Some (part c f o d))) = Ok (Some (part c f o d')) /\ dok ex f d').
      { assert (Ii : In i l) by (rewrite E; apply in_or_app; right; left; reflexivity).
        destruct (existsb (fun i0 => us_disc (it_f i0)) l) eqn:D.
        - exists true. split; [reflexivity|]. split; [reflexivity|]. intros X. rewrite <- (EX X i Ii). reflexivity.
        - exists d. split; [reflexivity|]. assert (NF : us_disc f = false).
          { destruct (us_disc f) eqn:U; [|reflexivity]. exfalso. rewrite <- not_true_iff_false in D. apply D. apply existsb_exists. exists i. split; [exact Ii|exact U]. }
          split; [rewrite NF; discriminate|]. intros X. rewrite NF. destruct (it_first i); [apply Dt; reflexivity|]. destruct (Df eq_refl) as (_ & Z0). rewrite (Z0 X). exact NF. }
      destruct DD as (d' & -> & Dk). cbn [bind].
      pose proof (sink_lanes_part c G l F L b Bd Bu l1 i l2' (lane_valid m) d' E M4 (Z.to_nat (seg_lanes c)) 0 ltac:(lia)) as LN. fold (zrange (seg_lanes c)) in LN.
      cbn [it_f it_off it_cnt i] in LN. replace (Z.min (Z.of_nat 0) _) with 0 in LN by lia. rewrite Z.add_0_r in LN. rewrite LN. cbn [bind].
      replace (Z.min (Z.of_nat 0 + Z.of_nat (Z.to_nat (seg_lanes c))) (Z.min (seg_lanes c) (zlen (us_data f) - o))) with (it_cnt i) by (cbn [it_cnt i]; lia).
      rewrite M3. clear LN.
      assert (NX : nfirst (l1 ++ [i]) = if it_first i then nfirst l1 + 1 else nfirst l1) by (rewrite nfirst_app; cbn [nfirst fold_right]; unfold inc; destruct (it_first i); lia).
      assert (LX : length (l1 ++ [i]) = S (length l1)) by (rewrite app_length; cbn; lia).
      unfold finished. cbn [filter]. fold (finished l2').
      destruct (it_fin i) eqn:Fn.
      + specialize (IH (l1 ++ [i]) l2' None q1 cur1 q2 None PE). rewrite NX, LX in IH. destruct IH as (fr' & sunk & R1 & R2 & R3).
        { rewrite <- app_assoc. exact E. } { lia. } { exact Logic.I. } { exact Q1. } { left. reflexivity. }
        exists fr', (part c f (o + it_cnt i) d' :: sunk). rewrite R1. cbn [bind]. split; [reflexivity|]. split; [exact R2|]. cbn [map it_f i]. constructor; [|exact R3].
        exists d'. split; [|exact Dk]. rewrite <- part_full by exact Gf. f_equal. unfold it_fin in Fn. cbn [it_off it_cnt it_f i] in Fn |- *. lia.
      + specialize (IH (l1 ++ [i]) l2' (Some (f, o + it_cnt i)) q1 cur1 q2 (Some (part c f (o + it_cnt i) d')) PE). rewrite NX, LX in IH. destruct IH as (fr' & sunk & R1 & R2 & R3).
        { rewrite <- app_assoc. exact E. } { lia. } { exact C'. } { exact Q1. }
        { cbn [sync]. cbn in C'. split; [cbn [it_cnt i]; lia|]. exists d'. split; [reflexivity|exact Dk]. }
        exists fr', sunk. split; [exact R1|]. split; [exact R2|exact R3].
  Qed.
End Sink.

(** ** One beat through source and sink *)
Definition pend (cur : option (us_frame * Z)) : list us_frame := match cur with None => [] | Some (f, _) => [f] end.
Lemma plan_frames sl : forall n cur q, let '(l, cur', q') := plan sl n cur q in pend cur ++ q = finished l ++ pend cur' ++ q'.
Proof.
  induction n as [|n IH]; intros cur q; [reflexivity|]. cbn [plan].
  destruct (pnext cur q) as [((f & o) & q1)|] eqn:N.
  - assert (E : pend cur ++ q = f :: q1).
    { destruct cur as [(f' & o')|]; cbn in *; [injection N as -> -> ->; reflexivity|]. destruct q; [discriminate|]. injection N as <- <- <-. reflexivity. }
    set (i := mkItem f o (Z.min sl (zlen (us_data f) - o))). specialize (IH (if it_fin i then None else Some (f, o + it_cnt i)) q1).
    destruct (plan sl n (if it_fin i then None else Some (f, o + it_cnt i)) q1) as ((l & cur') & q'). rewrite E. unfold finished in *. cbn [filter].
    destruct (it_fin i); cbn [map it_f i app pend] in *; [f_equal|]; exact IH.
  - destruct cur; [discriminate|]. destruct q; [|discriminate]. reflexivity.
Qed.
(** The state of a source, as [plan] has it. *)
Definition src_inv (c : us_cfg) (st : src_state) (cur : option (us_frame * Z)) : Prop := st = flag_of cur /\ cur_ok c cur /\ match cur with Some (_, o) => 0 < o | None => True end.
Definition exact (c : us_cfg) (q : list us_frame) : Prop := sg c = 1 \/ Forall (fun f => us_disc f = false) q.
Lemma plan_mid sl : forall n cur q, 1 <= sl -> match cur with Some (_, o) => 0 < o | None => True end -> match snd (fst (plan sl n cur q)) with Some (_, o) => 0 < o | None => True end.
Proof.
  induction n as [|n IH]; intros cur q S H; [exact H|]. cbn [plan]. destruct (pnext cur q) as [((f & o) & q1)|] eqn:N; [|exact Logic.I].
  set (i := mkItem f o (Z.min sl (zlen (us_data f) - o))). specialize (IH (if it_fin i then None else Some (f, o + it_cnt i)) q1 S).
  destruct (plan sl n (if it_fin i then None else Some (f, o + it_cnt i)) q1) as ((l & cur') & q'). cbn [fst snd] in *. apply IH. destruct (it_fin i) eqn:Fn; [exact Logic.I|]. unfold it_fin in Fn. cbn [it_off it_cnt it_f i] in Fn |- *.
  assert (0 <= o); [|lia]. destruct cur as [(f' & o')|]; cbn in N; [injection N as -> -> ->; lia|]. destruct q; [discriminate|]. injection N as <- <- <-. lia.
Qed.
Lemma plan_items sl : forall n cur q i, In i (fst (fst (plan sl n cur q))) -> In (it_f i) (pend cur ++ q).
Proof.
  induction n as [|n IH]; intros cur q i H; [destruct H|]. cbn [plan] in H. destruct (pnext cur q) as [((f & o) & q1)|] eqn:N; [|destruct H].
  assert (E : pend cur ++ q = f :: q1).
  { destruct cur as [(f' & o')|]; cbn in *; [injection N as -> -> ->; reflexivity|]. destruct q; [discriminate|]. injection N as <- <- <-. reflexivity. }
  set (j := mkItem f o (Z.min sl (zlen (us_data f) - o))) in *. specialize (IH (if it_fin j then None else Some (f, o + it_cnt j)) q1 i).
  destruct (plan sl n (if it_fin j then None else Some (f, o + it_cnt j)) q1) as ((l & cur') & q'). cbn [fst] in *. rewrite E. destruct H as [<-|H]; [left; reflexivity|]. specialize (IH H).
  destruct (it_fin j); cbn [pend app] in IH; [right; exact IH|exact IH].
Qed.
Lemma beat_ok c st cur q fr ex : good_cfg c -> src_inv c st cur -> Forall (good_frame c) q -> sync ex c cur fr -> (ex -> exact c (pend cur ++ q)) ->
  match src_beat c st q with
  | None => cur = None /\ q = []
  | Some r => exists b st' q' cur' fr' done sunk, r = Ok (b, st', q') /\ sink_beat c fr b = Ok (fr', sunk) /\
      pend cur ++ q = done ++ pend cur' ++ q' /\ Forall2 (rcv ex c) done sunk /\ src_inv c st' cur' /\ Forall (good_frame c) q' /\ sync ex c cur' fr'
  end.
Proof.
  intros G (E & C & P) Q Y EX. destruct (seg_lanes_facts c G) as (S1 & S2 & SL & _). unfold src_beat. destruct (src_next_plan c cur q C Q) as (N & PP). subst st. rewrite N.
  destruct (pnext cur q) as [((f & o) & q1)|] eqn:PN.
  2:{ destruct cur; [discriminate|]. destruct q; [split; reflexivity|discriminate]. }
  destruct (PP f o q1 eq_refl) as (Gf & Ho & Q1). clear PP N.
  assert (ER : src_segs c (zrange (sg c)) (Some (f, o, o =? 0)) q1 beat0 0 0 = src_segs c (zrange (sg c)) (flag_of cur) q beat0 0 0).
  { destruct cur as [(f' & o')|]; cbn in PN; [injection PN as -> -> ->; reflexivity|]. destruct q as [|g q]; [discriminate|]. injection PN as -> <- ->. cbn [flag_of]. unfold zrange. destruct (Z.to_nat (sg c)) as [|n] eqn:Z0; [lia|]. reflexivity. }
  rewrite ER. clear ER. pose proof (src_segs_ok c G (Z.to_nat (sg c)) 0 cur q beat0 0 0 ltac:(lia) C Q) as R. change (Z.to_nat 0) with 0%nat in R. fold (zrange (sg c)) in R.
  pose proof (plan_ds c SL (Z.to_nat (sg c)) cur q C Q) as D. pose proof (plan_frames (seg_lanes c) (Z.to_nat (sg c)) cur q) as PF. pose proof (plan_mid (seg_lanes c) (Z.to_nat (sg c)) cur q SL P) as PM.
  pose proof (plan_items (seg_lanes c) (Z.to_nat (sg c)) cur q) as PI.
  destruct (plan (seg_lanes c) (Z.to_nat (sg c)) cur q) as ((l & cur') & q') eqn:PL. cbn [fst snd] in PM, PI. destruct R as (R & C' & Q'). destruct D as (D & F & LL). cbn [beat0 tdata tkeep tuser tlast] in R. rewrite !Z.lor_0_l in R.
  set (b := mkBeat (dors (items_data c 0 l)) (kors (items_data c 0 l)) (uors c (items_named c 0 0 0 l)) (if (sg c =? 1) && existsb it_fin l then 1 else 0)) in *.
  assert (NE : l <> []).
  { intros ->. destruct (Z.to_nat (sg c)) as [|n] eqn:Z0; [lia|]. cbn [plan] in PL. rewrite PN in PL. destruct (plan _ n _ q1) as ((? & ?) & ?). discriminate PL. }
  assert (MK : masks_ok c l (masks c fr b)).
  { destruct (Z.eq_dec (sg c) 1) as [S|S].
    - rewrite S in PL, LL. change (Z.to_nat 1) with 1%nat in PL. cbn [plan] in PL. rewrite PN in PL.
      set (i := mkItem f o (Z.min (seg_lanes c) (zlen (us_data f) - o))) in *. injection PL as <- <- <-. inversion F; subst.
      apply (masks_one c i b fr cur ex); try assumption; try reflexivity.
      + cbn [b tlast existsb]. rewrite S. cbn. destruct (it_fin i); reflexivity.
      + unfold it_first. cbn [it_off i]. destruct cur as [(f' & o')|]; cbn in PN |- *; [injection PN as <- <- <-; reflexivity|]. destruct q; [discriminate|]. injection PN as <- <- <-. reflexivity.
    - apply (masks_many c cur q l cur' q'); try assumption; try reflexivity. destruct (w512 c) eqn:W; [left; reflexivity|right].
      assert (K : kd c = Rc) by (destruct (cfg_cases c G) as [(W' & _)|(_ & _ & [X|(X & _)])]; [congruence|contradiction|exact X]).
      destruct cur as [(f' & o')|]; cbn [sync cur_first] in *; [destruct Y as (H & d & -> & _); symmetry; lia|]. destruct Y as [->|(H & _)]; [reflexivity|contradiction]. }
  destruct (sink_segs_ok c G l F ltac:(lia) b eq_refl eq_refl (masks c fr b) MK ex) with (n := Z.to_nat (sg c)) (l1 := @nil item) (l2 := l) (cur := cur) (q := q) (cur' := cur') (q' := q') (fr := fr) as (fr' & sunk & X1 & X2 & X3); try assumption; try reflexivity.
  { intros X i Hi. destruct (EX X) as [S|NF].
    - destruct l as [|x [|y l]]; [destruct Hi| |rewrite !zlen_cons in LL; pose proof (zlen_nonneg l); lia]. destruct Hi as [<-|[]]. cbn [existsb]. rewrite orb_false_r. reflexivity.
    - rewrite Forall_forall in NF. rewrite (NF _ (PI i Hi)). symmetry. apply not_true_iff_false. intros B. apply existsb_exists in B. destruct B as (j & Hj & B). rewrite (NF _ (PI j Hj)) in B. discriminate. }
  exists b, (flag_of cur'), q', cur', fr', (finished l), sunk. split; [rewrite R; reflexivity|]. split; [exact X1|]. split; [exact PF|]. split; [exact X3|]. split; [split; [reflexivity|split; [exact C'|exact PM]]|]. split; [exact Q'|exact X2].
Qed.

(** ** On the channel *)
Lemma name_fits c n : good_cfg c -> nvalid c n -> noff c n + nwid c n <= tuw c.
Proof.
  intros G V. assert (I : us_init_ok c = true) by apply G. unfold us_init_ok in I. destruct (cfg_cases c G) as [(W & _ & L & S)|(W & L & S)]; unfold nvalid, noff, nwid, disc_off, par_off, be_off in *; rewrite W in *;
    destruct (kd c) eqn:K; destruct n as [k|k|k| |k|k|k|k| |k|k]; try contradiction; try (destruct V; contradiction); try lia;
    destruct S as [S|S]; try (destruct S as [S|S]); try (destruct S as (S0 & S)); try discriminate S0; try lia.
Qed.
Lemma beat_fits_ok c st q cur : good_cfg c -> src_inv c st cur -> Forall (good_frame c) q -> us_produce c st q = src_beat c st q.
Proof.
  intros G (-> & A1 & A2) Q. destruct (seg_lanes_facts c G) as (S1 & S2 & SL & S4 & _). unfold us_produce, src_beat. destruct (src_next_plan c cur q A1 Q) as (N & PP). rewrite N.
  destruct (pnext cur q) as [((f & o) & q1)|] eqn:PN; [|reflexivity].
  assert (ER : src_segs c (zrange (sg c)) (Some (f, o, o =? 0)) q1 beat0 0 0 = src_segs c (zrange (sg c)) (flag_of cur) q beat0 0 0).
  { destruct cur as [(f' & o')|]; cbn in PN; [injection PN as -> -> ->; reflexivity|]. destruct q as [|g q]; [discriminate|]. injection PN as -> <- ->. cbn [flag_of]. unfold zrange. destruct (Z.to_nat (sg c)) as [|n] eqn:Z0; [lia|]. reflexivity. }
  rewrite ER. pose proof (src_segs_ok c G (Z.to_nat (sg c)) 0 cur q beat0 0 0 ltac:(lia) A1 Q) as R. change (Z.to_nat 0) with 0%nat in R. fold (zrange (sg c)) in R.
  pose proof (plan_ds c SL (Z.to_nat (sg c)) cur q A1 Q) as D.
  destruct (plan (seg_lanes c) (Z.to_nat (sg c)) cur q) as ((l & cur') & q2) eqn:PL. destruct R as (R & _ & _). destruct D as (_ & F & LL). rewrite R. clear R ER. cbn [beat0 tdata tkeep tuser tlast]. rewrite !Z.lor_0_l.
  match goal with |- context [beat_fits c ?x] => assert (B : beat_fits c x = true) end; [|rewrite B; reflexivity]. unfold beat_fits. cbn [tdata tkeep tuser tlast].
  assert (W : wd c = lanes c * 32).
  { assert (I : us_init_ok c = true) by apply G. unfold us_init_ok, w512 in I. unfold lanes. destruct (kd c); lia. }
  assert (IN : forall p, In p (items_data c 0 l) -> 0 <= fst p < lanes c).
  { intros p P. apply items_data_in in P; [|exact SL|lia]. rewrite S2. nia. }
  pose proof (items_data_fit c SL l 0 ltac:(lia) F) as FD. unfold fits_names in FD. rewrite Forall_forall in FD.
  assert (B1 : 0 <= dors (items_data c 0 l) < 2 ^ wd c).
  { apply (ors_range (fun x => x * 32) (fun _ => 32) (fun x => 0 <= x < lanes c)); [cbv beta; intros; lia|lia| |cbv beta; intros; lia].
    unfold fits_names. apply Forall_forall. intros p P. split; [exact (IN p P)|exact (proj2 (FD p P))]. }
  assert (B2 : 0 <= kors (items_data c 0 l) < 2 ^ lanes c).
  { apply (ors_range (fun x => x) (fun _ => 1) (fun x => 0 <= x < lanes c)); [cbv beta; intros; lia|lia| |cbv beta; intros; lia].
    unfold fits_names. apply Forall_forall. intros p P. apply in_map_iff in P. destruct P as (p0 & <- & P). cbn [fst snd]. split; [exact (IN p0 P)|lia]. }
  assert (TW : 0 <= tuw c) by (assert (I : us_init_ok c = true) by apply G; unfold us_init_ok, w512 in I; destruct (kd c), (wd c =? 512); lia).
  assert (B3 : 0 <= uors c (items_named c 0 0 0 l) < 2 ^ tuw c).
  { apply (ors_range (noff c) (nwid c) (nvalid c)); [intros n V; apply npos; assumption|exact TW|apply items_fit; try assumption; lia|intros n V; apply name_fits; assumption]. }
  destruct ((sg c =? 1) && existsb it_fin l); lia.
Qed.
Definition us_link (ex : Prop) (c : us_cfg) (s : src_state) (k : option us_frame) (q ps : list us_frame) : Prop :=
  exists cur, src_inv c s cur /\ Forall (good_frame c) q /\ sync ex c cur k /\ ps = pend cur ++ q /\ (ex -> exact c ps).
Definition us_good (ex : Prop) (c : us_cfg) (f : us_frame) : Prop := good_frame c f /\ (ex -> exact c [f]).
Lemma us_link_send ex c s k q ps f : us_link ex c s k q ps -> us_good ex c f -> us_link ex c s k (q ++ [f]) (ps ++ [f]).
Proof.
  intros (cur & A1 & A2 & A3 & -> & A5) (G1 & G2). exists cur. split; [exact A1|]. split; [apply Forall_app; split; [exact A2|constructor; [exact G1|constructor]]|]. split; [exact A3|]. split; [rewrite app_assoc; reflexivity|].
  intros X. destruct (A5 X) as [S|N]; [left; exact S|]. destruct (G2 X) as [S|M]; [left; exact S|]. right. apply Forall_app. split; assumption.
Qed.
Lemma us_link_beat ex c s k q ps : good_cfg c -> us_link ex c s k q ps ->
  match us_produce c s q with
  | None => ps = []
  | Some r => exists b s' q' k' done sunk ps', r = Ok (b, s', q') /\ sink_beat c k b = Ok (k', sunk) /\ ps = done ++ ps' /\ Forall2 (rcv ex c) done sunk /\ us_link ex c s' k' q' ps'
  end.
Proof.
  intros G (cur & A1 & A2 & A3 & -> & A5). rewrite (beat_fits_ok c s q cur G A1 A2). pose proof (beat_ok c s cur q k ex G A1 A2 A3 A5) as X. destruct (src_beat c s q) as [r|].
  - destruct X as (b & st' & q' & cur' & fr' & done & sunk & X1 & X2 & X3 & X4 & X5 & X6 & X7). exists b, st', q', fr', done, sunk, (pend cur' ++ q'). split; [exact X1|]. split; [exact X2|]. split; [exact X3|]. split; [exact X4|].
    exists cur'. split; [exact X5|]. split; [exact X6|]. split; [exact X7|]. split; [reflexivity|]. intros E. destruct (A5 E) as [S|N]; [left; exact S|right]. rewrite X3 in N. apply Forall_app in N. tauto.
  - destruct X as (-> & ->). reflexivity.
Qed.
Lemma us_link0 ex c : us_link ex c None (sink0 c) [] [].
Proof.
  exists None. split; [split; [reflexivity|split; exact Logic.I]|]. split; [constructor|]. split; [|split; [reflexivity|intros _; right; constructor]].
  unfold sync, sink0. destruct (kd c); try (right; split; [discriminate|reflexivity]). left. reflexivity.
Qed.
Definition fwork (q : list us_frame) : Z := fold_right (fun f n => zlen (us_data f) + n) 0 q.
Definition cwork (cur : option (us_frame * Z)) : Z := match cur with None => 0 | Some (f, o) => zlen (us_data f) - o end.
Definition us_work (s : src_state) (q : list us_frame) : nat := Z.to_nat (match s with None => 0 | Some (f, o, _) => zlen (us_data f) - o end + fwork q).
Lemma fwork_nonneg q : 0 <= fwork q.
Proof. induction q as [|f q IH]; [cbn; lia|]. cbn [fwork fold_right]. fold (fwork q). pose proof (zlen_nonneg (us_data f)). lia. Qed.
Lemma plan_work c : 1 <= seg_lanes c -> forall n cur q, cur_ok c cur -> Forall (good_frame c) q ->
  let '(l, cur', q') := plan (seg_lanes c) n cur q in cwork cur' + fwork q' <= cwork cur + fwork q - zlen l.
Proof.
  intros SL. induction n as [|n IH]; intros cur q C Q; [cbn; lia|]. cbn [plan]. destruct (src_next_plan c cur q C Q) as (_ & P). destruct (pnext cur q) as [((f & o) & q1)|] eqn:N.
  - destruct (P f o q1 eq_refl) as (Gf & Ho & Q1). clear P. set (i := mkItem f o (Z.min (seg_lanes c) (zlen (us_data f) - o))).
    assert (C' : cur_ok c (if it_fin i then None else Some (f, o + it_cnt i))).
    { destruct (it_fin i) eqn:Fn; [exact Logic.I|]. unfold it_fin in Fn. cbn [it_off it_cnt it_f i] in Fn. split; [exact Gf|]. cbn [it_cnt i]. lia. }
    specialize (IH _ q1 C' Q1). destruct (plan (seg_lanes c) n (if it_fin i then None else Some (f, o + it_cnt i)) q1) as ((l & cur') & q'). rewrite zlen_cons.
    assert (E : cwork cur + fwork q = zlen (us_data f) - o + fwork q1).
    { destruct cur as [(f' & o')|]; cbn in N; [injection N as -> -> ->; reflexivity|]. destruct q as [|g q]; [discriminate|]. injection N as <- <- <-. cbn [cwork fwork fold_right]. fold (fwork q). lia. }
    rewrite E. destruct (it_fin i) eqn:Fn; unfold it_fin in Fn; cbn [it_off it_cnt it_f i cwork] in *; lia.
  - destruct cur; [discriminate|]. destruct q; [|discriminate]. cbn. lia.
Qed.
Lemma us_work_less ex c s q b s' q' k ps : good_cfg c -> us_link ex c s k q ps -> us_produce c s q = Some (Ok (b, s', q')) -> (us_work s' q' < us_work s q)%nat.
Proof.
  intros G (cur & A0 & Q & _) E. rewrite (beat_fits_ok c s q cur G A0 Q) in E. destruct A0 as (-> & A1 & A2). destruct (seg_lanes_facts c G) as (S1 & _ & SL & _). unfold src_beat in E. destruct (src_next_plan c cur q A1 Q) as (N & PP). rewrite N in E.
  destruct (pnext cur q) as [((f & o) & q1)|] eqn:PN; [|discriminate]. apply (f_equal (fun x => match x with Some y => y | None => Err OutOfFuel end)) in E.
  assert (ER : src_segs c (zrange (sg c)) (Some (f, o, o =? 0)) q1 beat0 0 0 = src_segs c (zrange (sg c)) (flag_of cur) q beat0 0 0).
  { destruct cur as [(f' & o')|]; cbn in PN; [injection PN as -> -> ->; reflexivity|]. destruct q as [|g q]; [discriminate|]. injection PN as -> <- ->. cbn [flag_of]. unfold zrange. destruct (Z.to_nat (sg c)) as [|n] eqn:Z0; [lia|]. reflexivity. }
  rewrite ER in E. pose proof (src_segs_ok c G (Z.to_nat (sg c)) 0 cur q beat0 0 0 ltac:(lia) A1 Q) as R. change (Z.to_nat 0) with 0%nat in R. fold (zrange (sg c)) in R.
  pose proof (plan_work c SL (Z.to_nat (sg c)) cur q A1 Q) as W.
  destruct (plan (seg_lanes c) (Z.to_nat (sg c)) cur q) as ((l & cur') & q2) eqn:PL. destruct R as (R & C' & _). rewrite R in E. apply Ok_inj in E. apply (f_equal (fun x => (snd (fst x), snd x))) in E. cbn [fst snd] in E. injection E as <- <-.
  assert (NE : 1 <= zlen l). { destruct (Z.to_nat (sg c)) as [|n] eqn:Z0; [lia|]. cbn [plan] in PL. rewrite PN in PL. destruct (plan _ n _ q1) as ((x & ?) & ?). injection PL as <- _ _. rewrite zlen_cons. pose proof (zlen_nonneg x). lia. }
  unfold us_work. pose proof (fwork_nonneg q2) as F2. pose proof (fwork_nonneg q).
  assert (X1 : match flag_of cur' with None => 0 | Some (g, x, _) => zlen (us_data g) - x end = cwork cur') by (destruct cur' as [(? & ?)|]; reflexivity).
  assert (X2 : match flag_of cur with None => 0 | Some (g, x, _) => zlen (us_data g) - x end = cwork cur) by (destruct cur as [(? & ?)|]; reflexivity).
  rewrite X1, X2. assert (0 <= cwork cur') by (destruct cur' as [(? & ?)|]; cbn in *; lia). lia.
Qed.
Lemma rcv_received ex c f g : rcv ex c f g -> received c f g.
Proof. intros (d & E & D & _). exists d. split; [exact E|exact D]. Qed.
Lemma rcv_exact c f g : rcv True c f g -> g = carried_frame c f.
Proof. intros (d & -> & _ & D). rewrite (D Logic.I). destruct f. reflexivity. Qed.
Lemma Forall2_impl {A B} (P Q : A -> B -> Prop) l l' : (forall a b, P a b -> Q a b) -> Forall2 P l l' -> Forall2 Q l l'.
Proof. intros H F. induction F; constructor; auto. Qed.
Lemma Forall2_map {A} (g : A -> A) l l' : Forall2 (fun a b => b = g a) l l' -> l' = map g l.
Proof. intros F. induction F; cbn; congruence. Qed.
Lemma Forall_good (ex : Prop) c l : Forall (good_frame c) l -> (ex -> exact c l) -> Forall (us_good ex c) l.
Proof.
  intros F E. apply Forall_forall. intros f Hf. rewrite Forall_forall in F. split; [exact (F f Hf)|]. intros X. destruct (E X) as [S|N]; [left; exact S|right]. rewrite Forall_forall in N. constructor; [exact (N f Hf)|constructor].
Qed.
Theorem us_stream_received c os : good_cfg c -> Forall (good_frame c) (sent_frames os) ->
  match us_chan_run c (us_chan0 c) os with
  | None => True
  | Some r => exists st, r = Ok st /\ exists done rest, sent_frames os = done ++ rest /\ Forall2 (received c) done (c_recv st)
  end.
Proof.
  intros G F. pose proof (chan_safe (us_produce c) (sink_beat c) (us_link False c) (us_good False c) (rcv False c) (us_link_send False c) (fun s k q ps => us_link_beat False c s k q ps G) None (sink0 c) os (us_link0 False c) (Forall_good False c _ F (fun x => match x with end))) as X.
  unfold us_chan_run, us_chan0. destruct (chan_run _ _ _ os) as [r|]; [|exact Logic.I]. destruct X as (st & E & done & rest & X1 & X2 & _). exists st. split; [exact E|]. exists done, rest. split; [exact X1|]. eapply Forall2_impl; [|exact X2]. apply rcv_received.
Qed.
Theorem us_stream_exact c os : good_cfg c -> Forall (good_frame c) (sent_frames os) -> sg c = 1 \/ Forall (fun f => us_disc f = false) (sent_frames os) ->
  match us_chan_run c (us_chan0 c) os with
  | None => True
  | Some r => exists st, r = Ok st /\ exists done rest, sent_frames os = done ++ rest /\ c_recv st = map (carried_frame c) done
  end.
Proof.
  intros G F E. pose proof (chan_safe (us_produce c) (sink_beat c) (us_link True c) (us_good True c) (rcv True c) (us_link_send True c) (fun s k q ps => us_link_beat True c s k q ps G) None (sink0 c) os (us_link0 True c) (Forall_good True c _ F (fun _ => E))) as X.
  unfold us_chan_run, us_chan0. destruct (chan_run _ _ _ os) as [r|]; [|exact Logic.I]. destruct X as (st & E' & done & rest & X1 & X2 & _). exists st. split; [exact E'|]. exists done, rest. split; [exact X1|]. apply Forall2_map. eapply Forall2_impl; [|exact X2]. intros a b. apply rcv_exact.
Qed.
Theorem us_stream_all c os st : good_cfg c -> Forall (good_frame c) (sent_frames os) -> us_chan_run c (us_chan0 c) os = Some (Ok st) ->
  exists os' st', Forall calm os' /\ us_chan_run c st (OWake :: os') = Some (Ok st') /\ Forall2 (received c) (sent_frames os) (c_recv st') /\
    (sg c = 1 \/ Forall (fun f => us_disc f = false) (sent_frames os) -> c_recv st' = map (carried_frame c) (sent_frames os)).
Proof.
  intros G F R. set (ex := sg c = 1 \/ Forall (fun f => us_disc f = false) (sent_frames os)).
  destruct (chan_live (us_produce c) (sink_beat c) (us_link ex c) (us_good ex c) (rcv ex c) (us_link_send ex c) (fun s k q ps => us_link_beat ex c s k q ps G) us_work (fun s q b s' q' k ps => us_work_less ex c s q b s' q' k ps G)
    None (sink0 c) os st (us_link0 ex c) (Forall_good ex c _ F (fun x => x)) R) as (os' & st' & X1 & X2 & X3).
  exists os', st'. split; [exact X1|]. split; [exact X2|]. split; [eapply Forall2_impl; [|exact X3]; apply rcv_received|]. intros X. apply Forall2_map. eapply Forall2_impl; [|exact X3].
  intros f g (d & -> & _ & D). rewrite (D X). destruct f. reflexivity.
Qed.
