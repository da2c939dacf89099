From Coq Require Import Lia.
From Verif Require Import Base BaseProofs ModelUtils ModelFrames ModelChan ModelUsStream SpecUsStream SpecUsLayout ProofsFields ProofsUsStream ProofsUsSink.

(** ** Pieces and items *)
Definition pc (i : item) : piece := mkPiece (it_f i) (it_off i) (it_cnt i).
Definition nm (s : slot) : name :=
  match s with
  | FirstBe k => NFb k | LastBe k => NLb k | Seq k => NSeq k | SeqHi => NSeqHi | Sop k => NSop k | SopPtr k => NPtr k | Eop k => NEop k | EopPtr k => NEptr k
  | Disc => NDisc | ByteEn l => NBe l | Parity l => NPar l
  end.
Lemma it_ends c i : it_ok c i -> ends (pc i) = it_fin i.
Proof. intros (_ & H & C). unfold ends, it_fin, pc. cbn [p_off p_cnt p_f]. lia. Qed.
Lemma plan_pieces c n : forall cur q, cur_ok c cur -> Forall (good_frame c) q -> 1 <= seg_lanes c ->
  let '(l, cur', q') := plan (seg_lanes c) n cur q in pieces (seg_lanes c) n cur q = (map pc l, cur', q') /\ Forall (it_ok c) l /\ zlen l <= Z.of_nat n.
Proof.
  induction n as [|n IH]; intros cur q C Q L.
  - cbn. split; [reflexivity|]. split; [constructor|lia].
  - cbn [plan pieces]. assert (N : match (match cur, q with Some (f, o), _ => Some (f, o, q) | None, f :: q => Some (f, 0, q) | None, [] => None end) with
      Some (f, o, q1) => pnext cur q = Some (f, o, q1) /\ good_frame c f /\ 0 <= o < zlen (us_data f) /\ Forall (good_frame c) q1 | None => pnext cur q = None /\ cur = None /\ q = [] end).
    { destruct cur as [[f o]|]; [cbn in C; cbn; tauto|]. destruct q as [|f q]; cbn; [tauto|]. inversion Q; subst. pose proof (zlen_pos _ (gf_some _ _ H1)). split; [reflexivity|]. split; [assumption|]. split; [lia|assumption]. }
    destruct (match cur, q with Some (f, o), _ => Some (f, o, q) | None, f :: q => Some (f, 0, q) | None, [] => None end) as [[[f o] q1]|].
    + destruct N as (-> & Gf & Ho & Q1). cbv zeta. set (k := Z.min (seg_lanes c) (zlen (us_data f) - o)).
      assert (E : it_fin (mkItem f o k) = (o + k =? zlen (us_data f))) by (unfold it_fin; cbn; lia). rewrite E.
      specialize (IH (if o + k =? zlen (us_data f) then None else Some (f, o + k)) q1). cbn [it_cnt] in *.
      destruct (plan (seg_lanes c) n (if o + k =? zlen (us_data f) then None else Some (f, o + k)) q1) as ((l & cur') & q').
      destruct IH as (E1 & F & Z1); [destruct (Z.eqb_spec (o + k) (zlen (us_data f))); [exact Logic.I|split; [exact Gf|lia]]|exact Q1|exact L|].
      rewrite E1. split; [reflexivity|]. split; [|rewrite zlen_cons; lia]. constructor; [|exact F]. split; [exact Gf|]. split; [exact Ho|]. reflexivity.
    + destruct N as (-> & -> & ->). cbn. split; [reflexivity|]. split; [constructor|lia].
Qed.
Lemma count_starts l : count starts (map pc l) = nfirst l.
Proof.
  unfold count. induction l as [|i l IH]; [reflexivity|]. cbn [map filter nfirst fold_right]. fold (nfirst l). change (starts (pc i)) with (it_first i).
  rewrite (inc_add (it_first i)). destruct (it_first i); [rewrite zlen_cons|]; cbn [inc]; lia.
Qed.
Lemma count_ends c l : Forall (it_ok c) l -> count ends (map pc l) = nfin l.
Proof.
  unfold count. induction 1 as [|i l O F IH]; [reflexivity|]. cbn [map filter nfin fold_right]. fold (nfin l). rewrite (it_ends c i O).
  rewrite (inc_add (it_fin i)). destruct (it_fin i); [rewrite zlen_cons|]; cbn [inc]; lia.
Qed.

(** ** The tables *)
Lemma slot_ok c s o w : good_cfg c -> slot_at c s = Some (o, w) -> nvalid c (nm s) -> o = noff c (nm s) /\ w = nwid c (nm s).
Proof.
  assert (PR : forall a b o w : Z, Some (a, b) = Some (o, w) -> o = a /\ w = b) by (intros ? ? ? ? X; inversion X; split; reflexivity).
  intros G E V. unfold slot_at in E. fold (w512 c) in E. destruct (cfg_cases c G) as [(W & _)|(W & _)]; rewrite W in E; unfold nvalid, noff, nwid, disc_off, par_off, be_off in *; rewrite W in *;
    destruct s; cbn [nm] in *; destruct (kd c); cbn [wide_slot narrow_slot] in E; try discriminate E; apply PR in E; destruct E as [-> ->]; split; try reflexivity; try lia; try tauto.
Qed.

Section Beat.
Context (c : us_cfg) (G : good_cfg c) (l : list item) (F : Forall (it_ok c) l) (L : zlen l <= sg c).
Context (b : beat) (Bd : tdata b = dors (items_data c 0 l)) (Bk : tkeep b = kors (items_data c 0 l)) (Bu : tuser b = uors c (items_named c 0 0 0 l)).
Lemma carries_sum s v : (slot_at c s <> None -> nvalid c (nm s) /\ usum (nm s) (items_named c 0 0 0 l) = v mod 2 ^ nwid c (nm s)) -> carries c b s v.
Proof.
  intros H. unfold carries. destruct (slot_at c s) as [[o w]|] eqn:E; [|exact Logic.I]. destruct (H ltac:(discriminate)) as [V S0]. destruct (slot_ok c s o w G E V) as [-> ->].
  destruct (npos c (nm s) G V) as [P1 P2]. rewrite <- S0, <- (read_field c l (nm s) G F L V), <- Bu. unfold rd. rewrite Z.land_ones, Z.shiftr_div_pow2 by assumption. reflexivity.
Qed.
(** Fields of the start of a piece. *)
Lemma head_read l1 i l2 n : l = l1 ++ i :: l2 -> it_first i = true ->
  match n with NFb k | NLb k => k = match kd c with Cq => zlen l1 | _ => nfirst l1 end | NSeq k | NSop k | NPtr k => k = nfirst l1 | NSeqHi => sg c = 1 | _ => False end ->
  usum n (items_named c 0 0 0 l) = usum n (sop_named c (nfirst l1) (zlen l1) (it_f i)).
Proof.
  intros E Fi N. destruct (seg_lanes_facts c G) as (_ & _ & SL & _). rewrite E. rewrite read_item.
  - unfold item_named, usum. rewrite Fi. rewrite !(sum_app name_eqb).
    rewrite (sum_none name_eqb name_eqb_ok _ (lane_named _ _ _ _ _)), (sum_none name_eqb name_eqb_ok _ (if it_fin i then _ else _)), (sum_none name_eqb name_eqb_ok _ (if us_disc _ then _ else _)).
    + rewrite !Z.lor_0_r. reflexivity.
    + destruct (us_disc (it_f i)); intros p P X; [|destruct P]. destruct P as [<-|[]]. cbn in X. subst n. destruct N.
    + destruct (it_fin i); intros p P X; [|destruct P]. apply eop_named_in in P. destruct P as ([Y|Y] & _); rewrite Y in X; subst n; destruct N.
    + intros p P X. unfold zrange in P. apply lane_named_in in P. destruct P as (k & _ & [Y|(Y & _)]); rewrite Y in X; subst n; destruct N.
  - exact SL.
  - rewrite Fi. unfold inc. destruct n; try contradiction; cbn [nin]; try exact Logic.I; destruct (kd c); lia.
  - destruct n; try discriminate. destruct N.
  - intros ->. rewrite E, zlen_app, zlen_cons in L. destruct l1 as [|x l1]; [|rewrite zlen_cons in L; pose proof (zlen_nonneg l1); pose proof (zlen_nonneg l2); lia].
    destruct l2 as [|x l2]; [split; reflexivity|]. rewrite zlen_cons in L. pose proof (zlen_nonneg l2). unfold zlen at 1 in L. cbn [length] in L. lia.
Qed.
Lemma tail_read l1 i l2 n : l = l1 ++ i :: l2 -> it_fin i = true -> match n with NEop k | NEptr k => k = nfin l1 | _ => False end ->
  usum n (items_named c 0 0 0 l) = usum n (eop_named c (nfin l1) (it_cnt i - 1 + zlen l1 * seg_lanes c)).
Proof.
  intros E Fi N. destruct (seg_lanes_facts c G) as (_ & _ & SL & _). rewrite E. rewrite read_item.
  - unfold item_named, usum. rewrite Fi. rewrite !(sum_app name_eqb).
    rewrite (sum_none name_eqb name_eqb_ok _ (lane_named _ _ _ _ _)), (sum_none name_eqb name_eqb_ok _ (if it_first i then _ else _)), (sum_none name_eqb name_eqb_ok _ (if us_disc _ then _ else _)).
    + rewrite !Z.lor_0_l. reflexivity.
    + destruct (us_disc (it_f i)); intros p P X; [|destruct P]. destruct P as [<-|[]]. cbn in X. subst n. destruct N.
    + destruct (it_first i); intros p P X; [|destruct P]. apply sop_named_in in P. destruct P as (_ & P). rewrite X in P. destruct n; tauto.
    + intros p P X. unfold zrange in P. apply lane_named_in in P. destruct P as (k & _ & [Y|(Y & _)]); rewrite Y in X; subst n; destruct N.
  - exact SL.
  - rewrite Fi. unfold inc. destruct n; try contradiction; cbn [nin]; lia.
  - destruct n; try discriminate. destruct N.
  - intros ->. destruct N.
Qed.
Lemma none_read n : match n with NSop k => nfirst l <= k | NEop k => nfin l <= k | _ => False end -> usum n (items_named c 0 0 0 l) = 0.
Proof.
  intros N. destruct (seg_lanes_facts c G) as (_ & _ & SL & _). unfold usum. apply (sum_none name_eqb name_eqb_ok). intros p P E.
  apply items_named_in in P; [|exact SL|lia]. rewrite E in P. destruct n; cbn [nin] in P; lia.
Qed.
Lemma land_mod x w m : 0 <= w -> m = Z.ones w -> Z.land x m = x mod 2 ^ w.
Proof. intros H ->. apply Z.land_ones. exact H. Qed.

Lemma laid : tlast b = Z.b2z ((sg c =? 1) && existsb it_fin l) -> laid_out c (map pc l) b.
Proof.
  intros TL. destruct (seg_lanes_facts c G) as (S1 & S2 & SL & S4 & S5).
  split; [|split; [|split; [|split]]].
  - intros m1 p m2 E. cbv zeta. apply map_eq_app in E. destruct E as (l1 & l3 & E & <- & E3). apply map_eq_cons in E3. destruct E3 as (i & l2 & -> & <- & <-).
    assert (ZL : zlen (map pc l1) = zlen l1) by (unfold zlen; rewrite map_length; reflexivity). rewrite ZL, !count_starts.
    assert (F1 : Forall (it_ok c) l1) by (rewrite E in F; apply Forall_app in F; tauto). rewrite (count_ends c l1 F1).
    assert (Oi : it_ok c i) by (rewrite Forall_forall in F; apply F; rewrite E; apply in_or_app; right; left; reflexivity). pose proof Oi as (Gi & Ho & Hc).
    pose proof (nfirst_bound l1) as N1. pose proof (nfin_bound l1) as N2. pose proof (zlen_nonneg l1) as N0. pose proof (zlen_nonneg l2) as N3.
    assert (LB : zlen l1 + 1 <= sg c) by (rewrite E, zlen_app, zlen_cons in L; lia).
    assert (LN : forall k, 0 <= k < seg_lanes c -> 0 <= k + zlen l1 * seg_lanes c < lanes c) by (intros k Hk; rewrite S2; nia).
    cbn [pc p_f p_off p_cnt]. split; [|split; [|split]].
    + intros k Hk. pose proof F as F0. rewrite E in F0. pose proof (read_data c l1 i l2 k SL F0 ltac:(lia)) as RD. cbv zeta in RD. rewrite <- E in RD. destruct RD as (R1 & R2).
      replace (zlen l1 * seg_lanes c + k) with (k + zlen l1 * seg_lanes c) by lia. specialize (LN k ltac:(lia)).
      split; [|split; [|split]].
      * rewrite <- Bd in R1. specialize (R1 ltac:(lia)). rewrite (land_mod _ 32) in R1 by (lia || reflexivity). rewrite Z.shiftr_div_pow2 in R1 by lia.
        rewrite (Z.mul_comm 32). exact R1.
      * rewrite <- Bk in R2. unfold bit_of in R2. rewrite land_pow in R2 by lia. rewrite R2. lia.
      * apply carries_sum. intros _. cbn [nm nvalid nwid]. split; [lia|]. rewrite E. rewrite read_item; [|exact SL|cbn [nin]; lia|discriminate|discriminate].
        rewrite item_read_lane by exact Logic.I. unfold zrange. rewrite (lane_read_par c (it_f i) (zlen l1) (Z.to_nat (seg_lanes c)) 0 (it_off i) k) by lia.
        replace (it_off i + (k - Z.of_nat 0)) with (it_off i + k) by lia. symmetry. apply Z.mod_small. apply (at_of_all (fun d => 0 <= d < 16)); [exact (gf_par _ _ Gi)|].
        pose proof (gf_par_len _ _ Gi). unfold zlen in *. lia.
      * apply carries_sum. intros NS. assert (HB : has_be c = true).
        { unfold slot_at, has_be in *. destruct (wd c =? 512), (kd c); try reflexivity; exfalso; apply NS; reflexivity. }
        cbn [nm nvalid nwid]. split; [split; [lia|unfold has_be in HB; destruct (kd c); exact Logic.I || discriminate HB]|].
        rewrite E. rewrite read_item; [|exact SL|cbn [nin]; lia|discriminate|discriminate].
        rewrite item_read_lane by exact Logic.I. unfold zrange. rewrite (lane_read_be c (it_f i) (zlen l1) (Z.to_nat (seg_lanes c)) HB 0 (it_off i) k) by lia.
        replace (it_off i + (k - Z.of_nat 0)) with (it_off i + k) by lia. symmetry. apply Z.mod_small. pose proof (gf_be _ _ Gi) as GB. unfold has_be in HB.
        assert (GB' : length (us_byte_en (it_f i)) = length (us_data (it_f i)) /\ Forall (fun d => 0 <= d < 16) (us_byte_en (it_f i))) by (destruct (kd c); discriminate HB || exact GB).
        destruct GB' as [B1 B2]. apply (at_of_all (fun d => 0 <= d < 16)); [exact B2|]. unfold zlen in *. lia.
    + intros k Hk. pose proof F as F0. rewrite E in F0. pose proof (read_data c l1 i l2 k SL F0 ltac:(lia)) as RD. cbv zeta in RD. rewrite <- E in RD. destruct RD as (_ & R2).
      replace (zlen l1 * seg_lanes c + k) with (k + zlen l1 * seg_lanes c) by lia. specialize (LN k ltac:(lia)).
      rewrite <- Bk in R2. unfold bit_of in R2. rewrite land_pow in R2 by lia. rewrite R2. lia.
    + change (starts (pc i)) with (it_first i). intros Fi. set (k := nfirst l1) in *.
      assert (HR := fun n => head_read l1 i l2 n E Fi). fold k in HR.
      assert (P4 : 0 <= zlen l1 * seg_lanes c / 4 < 4) by (split; [apply Z.div_pos; nia|apply Z.div_lt_upper_bound; nia]).
      split; [|split; [|split; [|split; [|intros H; split]]]].
      * apply carries_sum. intros NS. cbn [nm]. rewrite HR by reflexivity. unfold slot_at in NS. fold (w512 c) in NS. unfold sop_named. cbn [nvalid nwid].
        destruct (w512 c) eqn:W, (kd c) eqn:K; try (exfalso; apply NS; reflexivity); (split; [split; [lia|exact Logic.I]|]);
          unfold usum; cbn [sum fold_right fst snd name_eqb]; rewrite ?Z.eqb_refl; reflexivity.
      * apply carries_sum. intros NS. cbn [nm]. rewrite HR by reflexivity. unfold slot_at in NS. fold (w512 c) in NS. unfold sop_named. cbn [nvalid nwid].
        destruct (w512 c) eqn:W, (kd c) eqn:K; try (exfalso; apply NS; reflexivity); (split; [split; [lia|exact Logic.I]|]);
          unfold usum; cbn [sum fold_right fst snd name_eqb]; rewrite ?Z.eqb_refl, ?Z.lor_0_l, ?Z.lor_0_r; symmetry; apply Z.mod_small; exact P4.
      * apply carries_sum. intros NS. cbn [nm]. rewrite HR by reflexivity. unfold slot_at in NS. fold (w512 c) in NS. unfold sop_named. cbn [nvalid nwid].
        destruct (w512 c) eqn:W, (kd c) eqn:K; try (exfalso; apply NS; reflexivity); (split; [lia|]); [|destruct (tuw c =? 62)];
          unfold usum; cbn [app sum fold_right fst snd name_eqb]; rewrite ?Z.eqb_refl, ?Z.lor_0_l, ?Z.lor_0_r; (apply (land_mod _ 6) || apply (land_mod _ 4)); lia || reflexivity.
      * intros T62. apply carries_sum. intros NS. cbn [nm]. unfold slot_at in NS. fold (w512 c) in NS. destruct (w512 c) eqn:W, (kd c) eqn:K; try (exfalso; apply NS; reflexivity).
        assert (SG : sg c = 1) by (destruct (cfg_cases c G) as [(W' & _)|(_ & _ & [X|(X & _)])]; congruence). rewrite HR by exact SG. unfold sop_named. cbn [nvalid nwid]. rewrite W, K.
        split; [exact T62|]. rewrite (proj2 (Z.eqb_eq _ _) T62). unfold usum. cbn [app sum fold_right fst snd name_eqb]. rewrite ?Z.lor_0_l, ?Z.lor_0_r.
        rewrite (land_mod _ 2) by (lia || reflexivity). rewrite Z.shiftr_div_pow2 by lia. reflexivity.
      * apply carries_sum. intros NS. cbn [nm]. unfold slot_at in NS. fold (w512 c) in NS. 
        assert (KS : kd c = Cq -> k = zlen l1) by (intros K; destruct H as [H|[H|H]]; [congruence|lia|exact H]).
        rewrite HR by (destruct (kd c); [reflexivity|reflexivity|exact (KS eq_refl)|reflexivity]). unfold sop_named. cbn [nvalid nwid].
        destruct (w512 c) eqn:W, (kd c) eqn:K; try (exfalso; apply NS; reflexivity); rewrite <- ?(KS eq_refl); (split; [lia|]); [| |destruct (tuw c =? 62)|];
          unfold usum; cbn [app sum fold_right fst snd name_eqb]; rewrite ?Z.eqb_refl, ?Z.lor_0_l, ?Z.lor_0_r; apply (land_mod _ 4); lia || reflexivity.
      * apply carries_sum. intros NS. cbn [nm]. unfold slot_at in NS. fold (w512 c) in NS.
        assert (KS : kd c = Cq -> k = zlen l1) by (intros K; destruct H as [H|[H|H]]; [congruence|lia|exact H]).
        rewrite HR by (destruct (kd c); [reflexivity|reflexivity|exact (KS eq_refl)|reflexivity]). unfold sop_named. cbn [nvalid nwid].
        destruct (w512 c) eqn:W, (kd c) eqn:K; try (exfalso; apply NS; reflexivity); rewrite <- ?(KS eq_refl); (split; [lia|]); [| |destruct (tuw c =? 62)|];
          unfold usum; cbn [app sum fold_right fst snd name_eqb]; rewrite ?Z.eqb_refl, ?Z.lor_0_l, ?Z.lor_0_r; apply (land_mod _ 4); lia || reflexivity.
    + rewrite (it_ends c i Oi). intros Fi. set (k := nfin l1) in *. assert (HR := fun n => tail_read l1 i l2 n E Fi). fold k in HR.
      assert (LC := LN (it_cnt i - 1) ltac:(lia)). split.
      * apply carries_sum. intros NS. cbn [nm]. rewrite HR by reflexivity. unfold slot_at in NS. fold (w512 c) in NS. unfold eop_named. cbn [nvalid nwid].
        destruct (w512 c) eqn:W, (kd c) eqn:K; try (exfalso; apply NS; reflexivity); (split; [split; [lia|exact Logic.I]|]);
          unfold usum; cbn [sum fold_right fst snd name_eqb]; rewrite ?Z.eqb_refl; reflexivity.
      * apply carries_sum. intros NS. cbn [nm]. rewrite HR by reflexivity. unfold slot_at in NS. fold (w512 c) in NS. unfold eop_named. cbn [nvalid nwid].
        assert (LW : lanes c <= if w512 c then 16 else 8) by (destruct (cfg_cases c G) as [(W & _ & X & _)|(W & X & _)]; rewrite W; lia).
        replace (zlen l1 * seg_lanes c + it_cnt i - 1) with (it_cnt i - 1 + zlen l1 * seg_lanes c) by lia.
        destruct (w512 c) eqn:W, (kd c) eqn:K; try (exfalso; apply NS; reflexivity); (split; [split; [lia|exact Logic.I]|]);
          unfold usum; cbn [sum fold_right fst snd name_eqb]; rewrite ?Z.eqb_refl, ?Z.lor_0_l, ?Z.lor_0_r; symmetry; apply Z.mod_small; change (2 ^ 4) with 16; change (2 ^ 3) with 8; lia.
  - intros k Hk. rewrite count_starts in Hk. apply carries_sum. intros NS. cbn [nm nwid]. rewrite none_read by lia. split; [|reflexivity].
    unfold slot_at in NS. fold (w512 c) in NS. cbn [nvalid]. pose proof (nfirst_bound l). split; [lia|]. destruct (w512 c), (kd c); try exact Logic.I; apply NS; reflexivity.
  - intros k Hk. rewrite (count_ends c l F) in Hk. apply carries_sum. intros NS. cbn [nm nwid]. rewrite none_read by lia. split; [|reflexivity].
    unfold slot_at in NS. fold (w512 c) in NS. cbn [nvalid]. pose proof (nfin_bound l). split; [lia|]. destruct (w512 c), (kd c); try exact Logic.I; apply NS; reflexivity.
  - apply carries_sum. intros _. cbn [nm nwid nvalid]. split; [exact Logic.I|]. rewrite disc_sum.
    assert (X : existsb (fun p => us_disc (p_f p)) (map pc l) = existsb (fun i => us_disc (it_f i)) l) by (clear; induction l as [|i m IH]; [reflexivity|]; cbn [map existsb]; rewrite IH; reflexivity).
    rewrite X. destruct (existsb (fun i => us_disc (it_f i)) l); reflexivity.
  - rewrite TL. do 2 f_equal. clear - F. revert F. generalize l. intros m H. induction H as [|i m' O1 H IH]; [reflexivity|]. cbn [map existsb]. rewrite IH, (it_ends c i O1). reflexivity.
Qed.
End Beat.

Lemma source_layout c cur q b s q' : good_cfg c -> under_way c cur -> Forall (good_frame c) q -> src_beat c (state_of cur) q = Some (Ok (b, s, q')) ->
  exists l cur', pieces (seg_lanes c) (Z.to_nat (sg c)) cur q = (l, cur', q') /\ s = state_of cur' /\ under_way c cur' /\ Forall (good_frame c) q' /\ l <> [] /\ laid_out c l b.
Proof.
  intros G U Q E. destruct (seg_lanes_facts c G) as (S1 & S2 & SL & S4 & S5).
  assert (H : src_segs c (zrange (sg c)) (flag_of cur) q beat0 0 0 = Ok (b, s, q') /\ pnext cur q <> None).
  { unfold src_beat in E. destruct cur as [[f o]|]; cbn [state_of src_next] in E; [injection E as E; split; [exact E|discriminate]|].
    destruct q as [|f q]; [discriminate E|]. injection E as E. split; [|discriminate]. rewrite <- E. unfold zrange. destruct (Z.to_nat (sg c)) as [|n] eqn:N; [lia|]. reflexivity. }
  destruct H as [H NE]. pose proof (src_segs_ok c G (Z.to_nat (sg c)) 0 cur q beat0 0 0 ltac:(lia) U Q) as P. pose proof (plan_pieces c (Z.to_nat (sg c)) cur q U Q SL) as PP.
  assert (NN : fst (fst (plan (seg_lanes c) (Z.to_nat (sg c)) cur q)) <> []).
  { destruct (Z.to_nat (sg c)) as [|n] eqn:N; [lia|]. cbn [plan]. destruct (pnext cur q) as [[[f o] q1]|]; [|congruence].
    destruct (plan (seg_lanes c) n _ q1) as ((? & ?) & ?). discriminate. }
  destruct (plan (seg_lanes c) (Z.to_nat (sg c)) cur q) as ((l & cur') & q1). destruct P as (P & C' & Q'). destruct PP as (PP & F & ZL). cbn [fst] in NN.
  change (map Z.of_nat (List.seq (Z.to_nat 0) (Z.to_nat (sg c)))) with (zrange (sg c)) in P. rewrite P in H. injection H as <- <- <-.
  exists (map pc l), cur'. split; [exact PP|]. split; [reflexivity|]. split; [exact C'|]. split; [exact Q'|]. split; [destruct l; [congruence|discriminate]|].
  apply (laid c G l F ltac:(lia)); cbn [tdata tkeep tuser tlast beat0]; rewrite ?Z.lor_0_l; try reflexivity.
Qed.
