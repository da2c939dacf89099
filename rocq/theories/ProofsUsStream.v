From Verif Require Import Base BaseProofs ModelUtils ModelFrames ModelChan ModelUsStream SpecUsStream ProofsFields.

(** ** Named fields of tuser *)
Inductive name := NFb (k : Z) | NLb (k : Z) | NSeq (k : Z) | NSeqHi | NSop (k : Z) | NPtr (k : Z) | NEop (k : Z) | NEptr (k : Z) | NDisc | NBe (l : Z) | NPar (l : Z).
Definition name_eqb (m n : name) : bool :=
  match m, n with
  | NFb a, NFb b | NLb a, NLb b | NSeq a, NSeq b | NSop a, NSop b | NPtr a, NPtr b | NEop a, NEop b | NEptr a, NEptr b | NBe a, NBe b | NPar a, NPar b => a =? b
  | NSeqHi, NSeqHi | NDisc, NDisc => true
  | _, _ => false
  end.
Lemma name_eqb_ok m n : name_eqb m n = true <-> m = n.
Proof. destruct m, n; cbn; split; intros H; try discriminate H; try reflexivity; try (apply Z.eqb_eq in H; subst; reflexivity); injection H as <-; apply Z.eqb_refl. Qed.
Definition noff (c : us_cfg) (n : name) : Z :=
  match n with
  | NFb k => if w512 c then k * 4 else 0
  | NLb k => if w512 c then k * 4 + 8 else 4
  | NSeq k => if w512 c then k * 6 + 61 else 24
  | NSeqHi => 60
  | NSop k => match kd c with Rq => 20 + k | Rc => if w512 c then 64 + k else 32 + k | Cq => if w512 c then 80 + k else 40 | Cc => 0 + k end
  | NPtr k => match kd c with Rq => 22 + k * 2 | Rc => 68 + k * 2 | Cq => 82 + k * 2 | Cc => 2 + k * 2 end
  | NEop k => match kd c with Rq => 26 + k | Rc => if w512 c then 76 + k else 34 + k * 4 | Cq => 86 + k | Cc => 6 + k end
  | NEptr k => match kd c with Rq => 28 + k * 4 | Rc => if w512 c then 80 + k * 4 else 35 + k * 4 | Cq => 88 + k * 4 | Cc => 8 + k * 4 end
  | NDisc => disc_off c
  | NBe l => l * 4 + match be_off c with Some o => o | None => 0 end
  | NPar l => l * 4 + par_off c
  end.
Definition nwid (c : us_cfg) (n : name) : Z :=
  match n with
  | NFb _ | NLb _ | NBe _ | NPar _ => 4
  | NSeq _ => if w512 c then 6 else 4
  | NSeqHi | NPtr _ => 2
  | NSop _ | NEop _ | NDisc => 1
  | NEptr _ => if w512 c then 4 else 3
  end.
Definition nvalid (c : us_cfg) (n : name) : Prop :=
  match n with
  | NFb k | NLb k => match kd c with Rq | Cq => 0 <= k < sg c | _ => False end
  | NSeq k => match kd c with Rq => 0 <= k < sg c | _ => False end
  | NSeqHi => match kd c with Rq => if w512 c then False else tuw c = 62 | _ => False end
  | NSop k => 0 <= k < sg c /\ if w512 c then True else match kd c with Rc | Cq => True | _ => False end
  | NPtr k => 0 <= k < sg c /\ if w512 c then True else False
  | NEop k | NEptr k => 0 <= k < sg c /\ if w512 c then True else match kd c with Rc => True | _ => False end
  | NDisc => True
  | NBe l => 0 <= l < lanes c /\ match kd c with Rc | Cq => True | _ => False end
  | NPar l => 0 <= l < lanes c
  end.
Lemma cfg_cases c : good_cfg c ->
  (w512 c = true /\ wd c = 512 /\ lanes c = 16 /\ (sg c = 1 \/ sg c = 2 \/ (kd c = Rc /\ sg c = 4))) \/
  (w512 c = false /\ 2 <= lanes c <= 8 /\ (sg c = 1 \/ (kd c = Rc /\ wd c = 256 /\ sg c = 2))).
Proof.
  intros (I & S). unfold us_init_ok, w512, lanes in *. destruct (Z.eqb_spec (wd c) 512) as [E|N].
  - left. rewrite E in *. split; [reflexivity|]. split; [reflexivity|]. split; [reflexivity|]. destruct (kd c).
    1,3,4: assert (sg c = 1 \/ sg c = 2) as [A|A] by lia; tauto.
    assert (sg c = 1 \/ sg c = 2 \/ sg c = 4) as [A|[A|A]] by lia; tauto.
  - right. split; [reflexivity|]. destruct (kd c).
    1,3,4: assert (sg c = 1 /\ 2 <= wd c / 32 <= 8) by lia; tauto.
    assert (2 <= wd c / 32 <= 8 /\ (sg c = 1 \/ (wd c = 256 /\ sg c = 2))) by lia. tauto.
Qed.
Lemma seg_lanes_facts c : good_cfg c -> 1 <= sg c <= 4 /\ lanes c = sg c * seg_lanes c /\ 1 <= seg_lanes c /\ 1 <= lanes c <= 16 /\ (sg c = 1 \/ seg_lanes c mod 4 = 0).
Proof.
  intros G. destruct (cfg_cases c G) as [(_ & _ & L & S)|(_ & L & S)]; unfold seg_lanes.
  - rewrite L. destruct S as [->|[->|(_ & ->)]]; cbn; lia.
  - destruct S as [->|(_ & W & ->)]; [rewrite Z.div_1_r; lia|]. unfold lanes. rewrite W. cbn. lia.
Qed.
Lemma npos c n : good_cfg c -> nvalid c n -> 0 <= noff c n /\ 0 <= nwid c n.
Proof.
  intros G V. destruct (cfg_cases c G) as [(W & _)|(W & _)]; unfold nvalid, noff, nwid, disc_off, par_off, be_off in *; rewrite W in *; destruct (kd c), n; lia.
Qed.
Lemma ndisj c m n : good_cfg c -> nvalid c m -> nvalid c n -> m <> n -> noff c m + nwid c m <= noff c n \/ noff c n + nwid c n <= noff c m.
Proof.
  intros G Vm Vn D. destruct (cfg_cases c G) as [(W & _ & L & S)|(W & L & S)]; unfold nvalid, noff, nwid, disc_off, par_off, be_off in *; rewrite W in *;
    destruct (kd c) eqn:K; destruct m as [k|k|k| |k|k|k|k| |k|k]; destruct n as [j|j|j| |j|j|j|j| |j|j]; try contradiction; try (destruct Vm; contradiction); try (destruct Vn; contradiction);
    try (assert (k <> j) by congruence); try lia; try (exfalso; apply D; reflexivity);
    destruct S as [S|S]; try (destruct S as [S|S]); try (destruct S as (S0 & S)); try discriminate S0; try lia.
Qed.

(** ** The fields a source sets *)
Definition at_of (l : list Z) (i : Z) : Z := nth (Z.to_nat i) l 0.
Definition has_be (c : us_cfg) : bool := match kd c with Rc | Cq => true | _ => false end.
Definition sop_named (c : us_cfg) (sop seg : Z) (f : us_frame) : list (name * Z) :=
  let ptr := seg * seg_lanes c / 4 in
  match kd c with
  | Rq =>
    if w512 c then
      [(NFb sop, Z.land (us_first_be f) 0xf); (NLb sop, Z.land (us_last_be f) 0xf); (NSeq sop, Z.land (us_seq f) 0x3f); (NSop sop, 1); (NPtr sop, ptr)]
    else
      [(NFb sop, Z.land (us_first_be f) 0xf); (NLb sop, Z.land (us_last_be f) 0xf); (NSeq sop, Z.land (us_seq f) 0xf)] ++
      (if tuw c =? 62 then [(NSeqHi, Z.land (Z.shiftr (us_seq f) 4) 3)] else [])
  | Rc => if w512 c then [(NSop sop, 1); (NPtr sop, ptr)] else [(NSop sop, 1)]
  | Cq =>
    if w512 c then [(NFb seg, Z.land (us_first_be f) 0xf); (NLb seg, Z.land (us_last_be f) 0xf); (NSop sop, 1); (NPtr sop, ptr)]
    else [(NFb seg, Z.land (us_first_be f) 0xf); (NLb seg, Z.land (us_last_be f) 0xf); (NSop sop, 1)]
  | Cc => if w512 c then [(NSop sop, 1); (NPtr sop, ptr)] else []
  end.
Definition eop_named (c : us_cfg) (eop last : Z) : list (name * Z) :=
  if w512 c then [(NEop eop, 1); (NEptr eop, last)] else match kd c with Rc => [(NEop eop, 1); (NEptr eop, last)] | _ => [] end.
Fixpoint lane_named (c : us_cfg) (f : us_frame) (seg : Z) (ks : list Z) (o : Z) : list (name * Z) :=
  match ks with
  | [] => []
  | k :: ks =>
    let lane := k + seg * seg_lanes c in
    if o <? zlen (us_data f) then
      (if has_be c then [(NBe lane, at_of (us_byte_en f) o)] else []) ++ (NPar lane, at_of (us_parity f) o) :: lane_named c f seg ks (o + 1)
    else (NPar lane, 15) :: lane_named c f seg ks o
  end.
Fixpoint lane_data (c : us_cfg) (f : us_frame) (seg : Z) (ks : list Z) (o : Z) : list (Z * Z) :=
  match ks with
  | [] => []
  | k :: ks => if o <? zlen (us_data f) then (k + seg * seg_lanes c, at_of (us_data f) o) :: lane_data c f seg ks (o + 1) else lane_data c f seg ks o
  end.
Definition uors (c : us_cfg) := ors (noff c).
Definition dors := ors (fun l => l * 32).
Definition kors (l : list (Z * Z)) := ors (fun l => l) (map (fun p => (fst p, 1)) l).

Lemma ors_mid c x p y : ors (noff c) (x ++ p :: y) = Z.lor (ors (noff c) (x ++ [p])) (ors (noff c) y).
Proof. replace (x ++ p :: y) with ((x ++ [p]) ++ y) by (rewrite <- app_assoc; reflexivity). apply ors_app. Qed.
Lemma or_users_named c l b : or_users (map (fun p => (snd p, noff c (fst p))) l) b = mkBeat (tdata b) (tkeep b) (Z.lor (tuser b) (uors c l)) (tlast b).
Proof.
  revert b. induction l as [|p l IH]; intros b.
  - cbn. rewrite Z.lor_0_r. destruct b; reflexivity.
  - unfold or_users in *. cbn [map fold_left]. rewrite IH. unfold or_user. cbn [tdata tkeep tuser tlast]. unfold uors. cbn [ors fold_right]. rewrite Z.lor_assoc. reflexivity.
Qed.
Lemma sop_user_named c sop seg f : good_cfg c -> sop_user c sop seg f = map (fun p => (snd p, noff c (fst p))) (sop_named c sop seg f).
Proof.
  intros G. unfold sop_user, sop_named, noff. destruct (kd c) eqn:K, (w512 c) eqn:W; rewrite ?K; try reflexivity. destruct (tuw c =? 62); reflexivity.
Qed.
Lemma eop_user_named c eop last : eop_user c eop last = map (fun p => (snd p, noff c (fst p))) (eop_named c eop last).
Proof. unfold eop_user, eop_named, noff. destruct (kd c) eqn:K, (w512 c) eqn:W; cbn [map fst snd]; rewrite ?K, ?W; reflexivity. Qed.
Lemma zidx_ok l i : 0 <= i < zlen l -> zidx l i = Ok (at_of l i).
Proof. intros H. unfold zidx, at_of. rewrite (nth_error_nth' l 0) by (unfold zlen in H; lia). reflexivity. Qed.

Lemma src_lanes_ok c f seg : good_frame c f -> forall n a b o last, 0 <= o -> 0 <= a ->
  let ks := map Z.of_nat (List.seq (Z.to_nat a) n) in
  let m := Z.min (Z.of_nat n) (zlen (us_data f) - o) in
  o <= zlen (us_data f) ->
  src_lanes c f seg ks b o last =
  Ok (mkBeat (Z.lor (tdata b) (dors (lane_data c f seg ks o))) (Z.lor (tkeep b) (kors (lane_data c f seg ks o)))
        (Z.lor (tuser b) (uors c (lane_named c f seg ks o))) (tlast b), o + m, if m =? 0 then last else a + m - 1 + seg * seg_lanes c).
Proof.
  intros G. induction n as [|n IH]; intros a b o last Ho Ha ks m Hl; subst ks m.
  - cbn. replace (Z.min 0 (zlen (us_data f) - o)) with 0 by lia. rewrite !Z.lor_0_r, Z.add_0_r. destruct b; reflexivity.
  - cbn [List.seq map src_lanes lane_named lane_data]. rewrite Z2Nat.id by lia. replace (S (Z.to_nat a)) with (Z.to_nat (a + 1)) by lia.
    destruct (Z.ltb_spec o (zlen (us_data f))) as [L|L].
    + rewrite zidx_ok by lia. cbn [bind]. set (b1 := or_keep 1 (a + seg * seg_lanes c) (or_data (at_of (us_data f) o) ((a + seg * seg_lanes c) * 32) b)).
      assert (E : (b <- match be_off c with Some o' => e <- zidx (us_byte_en f) o ;; Ok (or_user e ((a + seg * seg_lanes c) * 4 + o') b1) | None => Ok b1 end ;;
                   p <- zidx (us_parity f) o ;; src_lanes c f seg (map Z.of_nat (List.seq (Z.to_nat (a + 1)) n)) (or_user p ((a + seg * seg_lanes c) * 4 + par_off c) b) (o + 1) (a + seg * seg_lanes c)) =
                  src_lanes c f seg (map Z.of_nat (List.seq (Z.to_nat (a + 1)) n))
                    (mkBeat (tdata b1) (tkeep b1) (Z.lor (tuser b1) (uors c ((if has_be c then [(NBe (a + seg * seg_lanes c), at_of (us_byte_en f) o)] else []) ++ [(NPar (a + seg * seg_lanes c), at_of (us_parity f) o)]))) (tlast b1))
                    (o + 1) (a + seg * seg_lanes c)).
      { pose proof (gf_par_len _ _ G) as PL. pose proof (gf_be _ _ G) as BL. unfold be_off, has_be in *. destruct (kd c) eqn:K; cbn [bind];
          try (rewrite (zidx_ok (us_byte_en f)) by (destruct BL as (BL & _); unfold zlen in *; lia); cbn [bind]);
          rewrite (zidx_ok (us_parity f)) by (unfold zlen in *; lia); cbn [bind]; f_equal; unfold or_user, uors; cbn [tdata tkeep tuser tlast app ors fold_right fst snd noff];
          rewrite ?Z.lor_0_r, ?Z.lor_assoc; unfold be_off; rewrite ?K; reflexivity. }
      rewrite E. rewrite IH by lia. clear E.
      replace (Z.min (Z.of_nat (S n)) (zlen (us_data f) - o)) with (Z.min (Z.of_nat n) (zlen (us_data f) - (o + 1)) + 1) by lia.
      set (m := Z.min (Z.of_nat n) (zlen (us_data f) - (o + 1))). subst b1. unfold or_keep, or_data, kors, uors. cbn [tdata tkeep tuser tlast].
      f_equal. f_equal; [f_equal|].
      * f_equal.
        -- cbn [dors ors fold_right fst snd]. unfold dors. rewrite Z.lor_assoc. reflexivity.
        -- cbn [map ors fold_right fst snd]. rewrite Z.lor_assoc. reflexivity.
        -- rewrite <- Z.lor_assoc. f_equal. symmetry. apply ors_mid.
      * lia.
      * destruct (Z.eqb_spec m 0) as [->|N]; [cbn; lia|]. replace (m + 1 =? 0) with false by lia. lia.
    + rewrite IH by lia. replace (Z.min (Z.of_nat (S n)) (zlen (us_data f) - o)) with 0 by lia. replace (Z.min (Z.of_nat n) (zlen (us_data f) - o)) with 0 by lia.
      unfold or_user, uors. cbn [tdata tkeep tuser tlast ors fold_right fst snd noff]. rewrite Z.lor_assoc. reflexivity.
Qed.

(** ** Plans *)
Record item := mkItem { it_f : us_frame; it_off : Z; it_cnt : Z }.
Definition it_fin (i : item) : bool := it_off i + it_cnt i >=? zlen (us_data (it_f i)).
Definition it_first (i : item) : bool := it_off i =? 0.
Definition pnext (cur : option (us_frame * Z)) (q : list us_frame) : option (us_frame * Z * list us_frame) :=
  match cur with Some x => Some (x, q) | None => match q with f :: q => Some (f, 0, q) | [] => None end end.
Fixpoint plan (sl : Z) (n : nat) (cur : option (us_frame * Z)) (q : list us_frame) : list item * option (us_frame * Z) * list us_frame :=
  match n with
  | O => ([], cur, q)
  | S n =>
    match pnext cur q with
    | None => ([], None, q)
    | Some (f, o, q) =>
      let i := mkItem f o (Z.min sl (zlen (us_data f) - o)) in
      let '(l, cur, q) := plan sl n (if it_fin i then None else Some (f, o + it_cnt i)) q in
      (i :: l, cur, q)
    end
  end.
Definition item_named (c : us_cfg) (seg sop eop : Z) (i : item) : list (name * Z) :=
  (if it_first i then sop_named c sop seg (it_f i) else []) ++ (if us_disc (it_f i) then [(NDisc, 1)] else []) ++
  lane_named c (it_f i) seg (zrange (seg_lanes c)) (it_off i) ++ (if it_fin i then eop_named c eop (it_cnt i - 1 + seg * seg_lanes c) else []).
Definition inc (b : bool) (n : Z) : Z := if b then n + 1 else n.
Fixpoint items_named (c : us_cfg) (seg sop eop : Z) (l : list item) : list (name * Z) :=
  match l with
  | [] => []
  | i :: l => item_named c seg sop eop i ++ items_named c (seg + 1) (inc (it_first i) sop) (inc (it_fin i) eop) l
  end.
Fixpoint items_data (c : us_cfg) (seg : Z) (l : list item) : list (Z * Z) :=
  match l with
  | [] => []
  | i :: l => lane_data c (it_f i) seg (zrange (seg_lanes c)) (it_off i) ++ items_data c (seg + 1) l
  end.
(** the state of a source *)
Definition flag_of (cur : option (us_frame * Z)) : src_state := match cur with None => None | Some (f, o) => Some (f, o, o =? 0) end.
Definition cur_ok (c : us_cfg) (cur : option (us_frame * Z)) : Prop :=
  match cur with None => True | Some (f, o) => good_frame c f /\ 0 <= o < zlen (us_data f) end.
Lemma zlen_pos {A} (l : list A) : l <> [] -> 0 < zlen l.
Proof. destruct l; [congruence|]. unfold zlen. cbn [length]. lia. Qed.
Lemma src_next_plan c cur q : cur_ok c cur -> Forall (good_frame c) q ->
  src_next (flag_of cur) q = match pnext cur q with None => None | Some (f, o, q') => Some (f, o, o =? 0, q') end /\
  (forall f o q', pnext cur q = Some (f, o, q') -> good_frame c f /\ 0 <= o < zlen (us_data f) /\ Forall (good_frame c) q').
Proof.
  intros C Q. destruct cur as [(f & o)|]; cbn [flag_of src_next pnext].
  - split; [reflexivity|]. intros f' o' q' E. injection E as <- <- <-. cbn in C. tauto.
  - destruct q as [|f q]; cbn; (split; [reflexivity|]); intros f' o' q' E; [discriminate|]. injection E as <- <- <-.
    inversion Q; subst. split; [assumption|]. split; [|assumption]. pose proof (zlen_pos _ (gf_some _ _ H1)). lia.
Qed.
Lemma zrange_S a n : map Z.of_nat (List.seq a (S n)) = Z.of_nat a :: map Z.of_nat (List.seq (S a) n).
Proof. reflexivity. Qed.
Lemma src_segs_ok c : good_cfg c -> forall n seg cur q b sop eop, 0 <= seg -> cur_ok c cur -> Forall (good_frame c) q ->
  let '(l, cur', q') := plan (seg_lanes c) n cur q in
  src_segs c (map Z.of_nat (List.seq (Z.to_nat seg) n)) (flag_of cur) q b sop eop =
    Ok (mkBeat (Z.lor (tdata b) (dors (items_data c seg l))) (Z.lor (tkeep b) (kors (items_data c seg l))) (Z.lor (tuser b) (uors c (items_named c seg sop eop l)))
          (if (sg c =? 1) && existsb it_fin l then 1 else tlast b), flag_of cur', q') /\
  cur_ok c cur' /\ Forall (good_frame c) q'.
Proof.
  intros G. destruct (seg_lanes_facts c G) as (_ & _ & SL & _).
  induction n as [|n IH]; intros seg cur q b sop eop Hs C Q.
  - cbn. rewrite !Z.lor_0_r, andb_false_r. destruct b. repeat split; assumption.
  - cbn [plan]. rewrite zrange_S. cbn [src_segs]. destruct (src_next_plan c cur q C Q) as (E & P). rewrite E. clear E.
    destruct (pnext cur q) as [((f & o) & q1)|] eqn:N.
    2:{ cbn [items_data items_named existsb]. rewrite andb_false_r. cbn [flag_of]. cbn. rewrite !Z.lor_0_r. destruct b. cbn. repeat split; try assumption. }
    destruct (P f o q1 eq_refl) as (Gf & Ho & Q1). clear P N.
    set (i := mkItem f o (Z.min (seg_lanes c) (zlen (us_data f) - o))).
    assert (Fi : it_fin i = (o + Z.min (seg_lanes c) (zlen (us_data f) - o) >=? zlen (us_data f))) by reflexivity.
    rewrite Z2Nat.id by lia.
    unfold zrange. set (ks := map Z.of_nat (List.seq 0 (Z.to_nat (seg_lanes c)))).
    set (b1 := if o =? 0 then or_users (sop_user c sop seg f) b else b).
    set (b2 := if us_disc f then or_user 1 (disc_off c) b1 else b1).
    pose proof (src_lanes_ok c f seg Gf (Z.to_nat (seg_lanes c)) 0 b2 o 0) as R. cbv zeta in R. change (Z.to_nat 0) with 0%nat in R. fold ks in R.
    rewrite R by lia. clear R. cbn [bind]. rewrite Z2Nat.id by lia. rewrite <- Fi.
    replace (Z.min (seg_lanes c) (zlen (us_data f) - o) =? 0) with false by lia.
    set (cnt := Z.min (seg_lanes c) (zlen (us_data f) - o)) in *. replace (0 + cnt - 1) with (cnt - 1) by lia.
    set (b3 := mkBeat (Z.lor (tdata b2) (dors (lane_data c f seg ks o))) (Z.lor (tkeep b2) (kors (lane_data c f seg ks o))) (Z.lor (tuser b2) (uors c (lane_named c f seg ks o))) (tlast b2)).
    assert (B3 : b3 = mkBeat (Z.lor (tdata b) (dors (lane_data c f seg ks o))) (Z.lor (tkeep b) (kors (lane_data c f seg ks o)))
                       (Z.lor (tuser b) (uors c ((if it_first i then sop_named c sop seg f else []) ++ (if us_disc f then [(NDisc, 1)] else []) ++ lane_named c f seg ks o))) (tlast b)).
    { unfold b3, b2, b1. rewrite sop_user_named by exact G. rewrite or_users_named. unfold uors. rewrite !ors_app. unfold it_first. cbn [it_off i].
      destruct (o =? 0), (us_disc f); unfold or_user; cbn [tdata tkeep tuser tlast ors fold_right fst snd noff]; rewrite ?Z.lor_0_r, ?Z.lor_0_l, ?Z.lor_assoc; reflexivity. }
    clearbody b3. subst b3. clear b1 b2.
    assert (C' : cur_ok c (if it_fin i then None else Some (f, o + it_cnt i))).
    { destruct (it_fin i) eqn:F; [exact Logic.I|]. unfold it_fin in F. cbn [it_off it_cnt it_f i] in F. split; [exact Gf|]. cbn [it_cnt i]. unfold cnt in *. lia. }
    assert (Fs : it_first i = (o =? 0)) by reflexivity.
    destruct (it_fin i) eqn:F.
    + rewrite eop_user_named, or_users_named. cbn [tdata tkeep tuser tlast].
      specialize (IH (seg + 1) None q1). replace (Z.to_nat (seg + 1)) with (S (Z.to_nat seg)) in IH by lia. cbn [flag_of] in IH.
      destruct (plan (seg_lanes c) n None q1) as ((l & cur') & q'). cbn [items_data items_named existsb]. rewrite F. cbn [orb].
      match goal with |- context [src_segs c _ None q1 ?bb ?s ?e] => destruct (IH bb s e ltac:(lia) C' Q1) as (R & Cq' & Qq') end.
      split; [|split; assumption]. rewrite R. clear R IH.
      assert (T : forall x (d k u t : Z), tdata (if x : bool then mkBeat d k u 1 else mkBeat d k u t) = d /\ tkeep (if x then mkBeat d k u 1 else mkBeat d k u t) = k /\
                   tuser (if x then mkBeat d k u 1 else mkBeat d k u t) = u /\ tlast (if x then mkBeat d k u 1 else mkBeat d k u t) = if x then 1 else t) by (intros [] ? ? ? ?; repeat split; reflexivity).
      match goal with |- context [if sg c =? 1 then mkBeat ?d ?k ?u 1 else mkBeat ?d ?k ?u ?t] => destruct (T (sg c =? 1) d k u t) as (T1 & T2 & T3 & T4); rewrite T1, T2, T3, T4; clear T T1 T2 T3 T4 end.
      f_equal. f_equal. f_equal. f_equal.
      * unfold dors. rewrite ors_app, Z.lor_assoc. reflexivity.
      * unfold kors. rewrite map_app, ors_app, Z.lor_assoc. reflexivity.
      * unfold item_named, uors. rewrite F, Fs. cbn [it_f it_off it_cnt i inc]. fold (zrange (seg_lanes c)). rewrite !ors_app, !Z.lor_assoc. unfold ks, zrange, inc. destruct (o =? 0); reflexivity.
      * rewrite andb_true_r. destruct (sg c =? 1), (existsb it_fin l); reflexivity.
    + specialize (IH (seg + 1) (Some (f, o + cnt)) q1). replace (Z.to_nat (seg + 1)) with (S (Z.to_nat seg)) in IH by lia. cbn [flag_of] in IH.
      replace (o + cnt =? 0) with false in IH by (unfold cnt; lia).
      destruct (plan (seg_lanes c) n (Some (f, o + cnt)) q1) as ((l & cur') & q'') eqn:PE. cbn [it_cnt i]. rewrite PE. cbn [items_data items_named existsb]. rewrite F. cbn [orb].
      match goal with |- context [src_segs c _ _ q1 ?bb ?s ?e] => destruct (IH bb s e ltac:(lia) C' Q1) as (R & Cq' & Qq') end.
      split; [|split; assumption]. rewrite R. clear R IH. cbn [tdata tkeep tuser tlast].
      f_equal. f_equal. f_equal. f_equal.
      * unfold dors. rewrite ors_app, Z.lor_assoc. reflexivity.
      * unfold kors. rewrite map_app, ors_app, Z.lor_assoc. reflexivity.
      * unfold item_named, uors. rewrite F, Fs. cbn [it_f it_off it_cnt i inc]. fold (zrange (seg_lanes c)). rewrite !ors_app, !Z.lor_assoc. unfold ks, zrange, inc. cbn [ors fold_right]. rewrite Z.lor_0_r. destruct (o =? 0); reflexivity.
Qed.

(** ** Reading the fields back *)
Definition usum := sum name_eqb.
Definition nfirst (l : list item) : Z := fold_right (fun i n => inc (it_first i) n) 0 l.
Definition nfin (l : list item) : Z := fold_right (fun i n => inc (it_fin i) n) 0 l.
Definition it_ok (c : us_cfg) (i : item) : Prop :=
  good_frame c (it_f i) /\ 0 <= it_off i < zlen (us_data (it_f i)) /\ it_cnt i = Z.min (seg_lanes c) (zlen (us_data (it_f i)) - it_off i).
Lemma inc_add b n : inc b n = n + inc b 0. Proof. destruct b; cbn; lia. Qed.
Lemma inc_bound b : 0 <= inc b 0 <= 1. Proof. destruct b; cbn; lia. Qed.
Lemma zlen_cons {A} (x : A) l : zlen (x :: l) = zlen l + 1. Proof. unfold zlen. cbn [length]. lia. Qed.
Lemma zlen_app {A} (a b : list A) : zlen (a ++ b) = zlen a + zlen b. Proof. unfold zlen. rewrite app_length. lia. Qed.
Lemma zlen_nonneg {A} (l : list A) : 0 <= zlen l. Proof. unfold zlen. lia. Qed.
Lemma nfirst_bound l : 0 <= nfirst l <= zlen l.
Proof. induction l as [|i l IH]; [cbn; lia|]. rewrite zlen_cons. cbn [nfirst fold_right]. fold (nfirst l). rewrite inc_add. pose proof (inc_bound (it_first i)). lia. Qed.
Lemma nfin_bound l : 0 <= nfin l <= zlen l.
Proof. induction l as [|i l IH]; [cbn; lia|]. rewrite zlen_cons. cbn [nfin fold_right]. fold (nfin l). rewrite inc_add. pose proof (inc_bound (it_fin i)). lia. Qed.
Lemma nfirst_app a b : nfirst (a ++ b) = nfirst a + nfirst b.
Proof. induction a as [|i a IH]; [reflexivity|]. cbn [app nfirst fold_right] in *. fold (nfirst (a ++ b)) (nfirst a). rewrite (inc_add _ (nfirst (a ++ b))), (inc_add _ (nfirst a)). unfold nfirst at 1. fold (nfirst (a++b)). rewrite IH. lia. Qed.

(** Names an item uses. *)
Definition nin (c : us_cfg) (seg sop eop seg' sop' eop' : Z) (n : name) : Prop :=
  match n with
  | NFb k | NLb k => match kd c with Cq => seg <= k < seg' | _ => sop <= k < sop' end
  | NSeq k | NSop k | NPtr k => sop <= k < sop'
  | NEop k | NEptr k => eop <= k < eop'
  | NBe l | NPar l => seg * seg_lanes c <= l < seg' * seg_lanes c
  | NSeqHi | NDisc => True
  end.
Lemma lane_named_in c f seg n : forall a o p, In p (lane_named c f seg (map Z.of_nat (List.seq a n)) o) ->
  exists k, Z.of_nat a <= k < Z.of_nat (a + n) /\ (fst p = NPar (k + seg * seg_lanes c) \/ fst p = NBe (k + seg * seg_lanes c) /\ has_be c = true).
Proof.
  induction n as [|n IH]; intros a o p H; [destruct H|]. cbn [List.seq map lane_named] in H.
  assert (R : forall o, In p (lane_named c f seg (map Z.of_nat (List.seq (S a) n)) o) ->
    exists k, Z.of_nat a <= k < Z.of_nat (a + S n) /\ (fst p = NPar (k + seg * seg_lanes c) \/ fst p = NBe (k + seg * seg_lanes c) /\ has_be c = true)).
  { intros o' Q. destruct (IH (S a) o' p Q) as (k & Hk & D). exists k. split; [lia|exact D]. }
  destruct (o <? zlen (us_data f)).
  - apply in_app_or in H. destruct H as [H|[<-|H]]; [|exists (Z.of_nat a); split; [lia|left; reflexivity]|eauto].
    destruct (has_be c); [|destruct H]. destruct H as [<-|[]]. exists (Z.of_nat a). split; [lia|right; split; reflexivity].
  - destruct H as [<-|H]; [exists (Z.of_nat a); split; [lia|left; reflexivity]|eauto].
Qed.
Lemma sop_named_in c sop seg f p : In p (sop_named c sop seg f) -> nin c seg sop 0 (seg + 1) (sop + 1) 0 (fst p) /\
  match fst p with NEop _ | NEptr _ | NBe _ | NPar _ | NDisc => False | NSeqHi => kd c = Rq /\ w512 c = false /\ tuw c = 62 | NSeq _ => kd c = Rq
  | NFb _ | NLb _ => match kd c with Rq | Cq => True | _ => False end | NSop _ => w512 c = true \/ kd c = Rc \/ kd c = Cq | NPtr _ => w512 c = true end.
Proof.
  unfold sop_named, nin. destruct (kd c) eqn:K, (w512 c) eqn:W; try (destruct (Z.eqb_spec (tuw c) 62)); cbn [app]; intros H;
    repeat (destruct H as [<-|H]; [cbn [fst]; rewrite ?K, ?W; split; try tauto; lia|]); destruct H.
Qed.
Lemma eop_named_in c eop last p : In p (eop_named c eop last) -> (fst p = NEop eop \/ fst p = NEptr eop) /\ (w512 c = true \/ kd c = Rc).
Proof. unfold eop_named. destruct (w512 c) eqn:W, (kd c) eqn:K; intros H; repeat (destruct H as [<-|H]; [cbn [fst]; tauto|]); destruct H. Qed.
Lemma item_named_in c seg sop eop i p : 0 <= seg -> 1 <= seg_lanes c -> In p (item_named c seg sop eop i) ->
  nin c seg sop eop (seg + 1) (inc (it_first i) sop) (inc (it_fin i) eop) (fst p).
Proof.
  intros S L H. unfold item_named in H. apply in_app_or in H. destruct H as [H|H].
  { unfold inc. destruct (it_first i); [|destruct H]. apply sop_named_in in H. destruct H as (H & X). unfold nin in *. destruct (fst p); try tauto; exact H. }
  apply in_app_or in H. destruct H as [H|H].
  { destruct (us_disc (it_f i)); [|destruct H]. destruct H as [<-|[]]. exact Logic.I. }
  apply in_app_or in H. destruct H as [H|H].
  { unfold zrange in H. apply lane_named_in in H. destruct H as (k & Hk & [E|(E & _)]); rewrite E; cbn [nin]; nia. }
  unfold inc. destruct (it_fin i); [|destruct H]. apply eop_named_in in H. destruct H as ([E|E] & _); rewrite E; cbn [nin]; lia.
Qed.
Lemma nin_mono c a b d a' b' d' x y z x' y' z' n : 1 <= seg_lanes c -> x <= a -> y <= b -> z <= d -> a' <= x' -> b' <= y' -> d' <= z' -> nin c a b d a' b' d' n -> nin c x y z x' y' z' n.
Proof. intros L ? ? ? ? ? ?. destruct n; cbn [nin]; try tauto; try lia; try (destruct (kd c); lia); nia. Qed.
Lemma items_named_in c : 1 <= seg_lanes c -> forall l seg sop eop p, 0 <= seg -> In p (items_named c seg sop eop l) ->
  nin c seg sop eop (seg + zlen l) (sop + nfirst l) (eop + nfin l) (fst p).
Proof.
  intros L. induction l as [|i l IH]; intros seg sop eop p S H; [destruct H|]. cbn [items_named] in H. rewrite zlen_cons. cbn [nfirst nfin fold_right].
  fold (nfirst l) (nfin l). pose proof (nfirst_bound l). pose proof (nfin_bound l). pose proof (inc_bound (it_first i)). pose proof (inc_bound (it_fin i)).
  rewrite (inc_add _ (nfirst l)), (inc_add _ (nfin l)). pose proof (zlen_nonneg l).
  apply in_app_or in H. destruct H as [H|H].
  - apply item_named_in in H; try assumption. rewrite (inc_add _ sop), (inc_add _ eop) in H. eapply nin_mono; [exact L|..|exact H]; lia.
  - apply IH in H; [|lia]. rewrite (inc_add _ sop), (inc_add _ eop) in H. eapply nin_mono; [exact L|..|exact H]; lia.
Qed.
Lemma items_named_app c l l' : forall seg sop eop, items_named c seg sop eop (l ++ l') = items_named c seg sop eop l ++ items_named c (seg + zlen l) (sop + nfirst l) (eop + nfin l) l'.
Proof.
  induction l as [|i l IH]; intros seg sop eop.
  - cbn. rewrite !Z.add_0_r. reflexivity.
  - cbn [app items_named]. rewrite IH, <- app_assoc. f_equal. f_equal. rewrite zlen_cons. cbn [nfirst nfin fold_right]. fold (nfirst l) (nfin l).
    rewrite (inc_add _ sop), (inc_add _ eop), (inc_add _ (nfirst l)), (inc_add _ (nfin l)). f_equal; lia.
Qed.
(** Items do not disturb each other. *)
Lemma read_item c l1 i l2 n : 1 <= seg_lanes c ->
  nin c (zlen l1) (nfirst l1) (nfin l1) (zlen l1 + 1) (inc (it_first i) (nfirst l1)) (inc (it_fin i) (nfin l1)) n -> n <> NDisc -> (n = NSeqHi -> l1 = [] /\ l2 = []) ->
  usum n (items_named c 0 0 0 (l1 ++ i :: l2)) = usum n (item_named c (zlen l1) (nfirst l1) (nfin l1) i).
Proof.
  intros L N D H. rewrite items_named_app. cbn [items_named]. unfold usum. rewrite !(sum_app name_eqb). rewrite !Z.add_0_l. pose proof (zlen_nonneg l1).
  rewrite (sum_none name_eqb name_eqb_ok n (items_named c 0 0 0 l1)), (sum_none name_eqb name_eqb_ok n (items_named _ _ _ _ l2)).
  - rewrite Z.lor_0_l, Z.lor_0_r. reflexivity.
  - intros p P E. assert (X : n = NSeqHi -> False) by (intros X; destruct (H X) as (_ & ->); destruct P). apply items_named_in in P; [|exact L|lia]. rewrite E in P.
    rewrite (inc_add _ (nfirst l1)), (inc_add _ (nfin l1)) in N, P. destruct n; cbn [nin] in N, P; try congruence; try lia; try (destruct (kd c); lia); try nia.
  - intros p P E. assert (X : n = NSeqHi -> False) by (intros X; destruct (H X) as (-> & _); destruct P). apply items_named_in in P; [|exact L|lia]. rewrite E in P.
    destruct n; cbn [nin] in N, P; try congruence; try lia; try (destruct (kd c); lia); try nia.
Qed.

(** Everything fits. *)
Lemma at_of_all (P : Z -> Prop) l i : Forall P l -> 0 <= i < zlen l -> P (at_of l i).
Proof. intros F H. unfold at_of. rewrite Forall_forall in F. apply F. apply nth_In. unfold zlen in H. lia. Qed.
Lemma lane_named_fit c f seg n : good_frame c f -> forall a o, 0 <= seg -> 0 <= o -> Z.of_nat a + Z.of_nat n + seg * seg_lanes c <= lanes c -> 1 <= seg_lanes c ->
  fits_names (nwid c) (nvalid c) (lane_named c f seg (map Z.of_nat (List.seq a n)) o).
Proof.
  intros G. induction n as [|n IH]; intros a o Hs Ho Hn L; [constructor|]. cbn [List.seq map lane_named].
  assert (V : 0 <= Z.of_nat a + seg * seg_lanes c < lanes c) by nia.
  destruct (Z.ltb_spec o (zlen (us_data f))) as [X|X].
  - apply Forall_app. split.
    + unfold has_be. pose proof (gf_be _ _ G) as B.
      assert (R : match kd c with Rc | Cq => True | _ => False end -> fits_names (nwid c) (nvalid c) [(NBe (Z.of_nat a + seg * seg_lanes c), at_of (us_byte_en f) o)]).
      { intros K. apply Forall_cons; [|apply Forall_nil]. cbn [fst snd nvalid nwid]. split; [split; [exact V|exact K]|]. assert (B' : length (us_byte_en f) = length (us_data f) /\ Forall (fun d => 0 <= d < 16) (us_byte_en f)) by (destruct (kd c); tauto).
        apply (at_of_all (fun d => 0 <= d < 16)); [tauto|]. unfold zlen in *. rewrite (proj1 B'). lia. }
      destruct (kd c); first [apply Forall_nil|apply R; exact Logic.I].
    + constructor.
      * cbn [fst snd nvalid nwid]. split; [exact V|]. apply (at_of_all (fun d => 0 <= d < 16)); [exact (gf_par _ _ G)|]. unfold zlen in *. rewrite (gf_par_len _ _ G). lia.
      * apply IH; lia.
  - constructor; [cbn [fst snd nvalid nwid]; split; [exact V|lia]|]. apply IH; lia.
Qed.
Lemma land_small x m : 0 <= m -> 0 <= Z.land x (Z.ones m) < 2 ^ m.
Proof. intros H. rewrite Z.land_ones by lia. apply Z.mod_pos_bound. lia. Qed.
Lemma item_fit c seg sop eop i : good_cfg c -> it_ok c i -> 0 <= seg < sg c -> 0 <= sop < sg c -> 0 <= eop < sg c -> fits_names (nwid c) (nvalid c) (item_named c seg sop eop i).
Proof.
  intros G (Gi & Ho & Hc) Hs Hp He. destruct (seg_lanes_facts c G) as (S1 & S2 & S3 & S4 & S5). unfold item_named.
  apply Forall_app. split; [|apply Forall_app; split; [|apply Forall_app; split]].
  - destruct (it_first i); [|constructor]. unfold sop_named.
    assert (F : forall x, 0 <= Z.land x 15 < 2 ^ 4) by (intros x; apply (land_small x 4); lia). assert (F6 : forall x, 0 <= Z.land x 63 < 2 ^ 6) by (intros x; apply (land_small x 6); lia).
    assert (F2 : forall x, 0 <= Z.land x 3 < 2 ^ 2) by (intros x; apply (land_small x 2); lia).
    assert (PT : w512 c = true -> 0 <= seg * seg_lanes c / 4 < 2 ^ 2).
    { intros W. destruct (cfg_cases c G) as [(_ & _ & LA & _)|(W' & _)]; [|congruence]. change (2 ^ 2) with 4. split; [apply Z.div_pos; nia|]. apply Z.div_lt_upper_bound; nia. }
    destruct (kd c) eqn:K, (w512 c) eqn:W; try destruct (Z.eqb_spec (tuw c) 62); cbn [app];
      repeat (apply Forall_cons; [cbn [fst snd nvalid nwid]; rewrite ?K, ?W; split; [tauto||lia|first [apply F|apply F6|apply F2|apply PT; reflexivity|lia]]|]); apply Forall_nil.
  - destruct (us_disc (it_f i)); [|constructor]. apply Forall_cons; [|constructor]. cbn [fst snd nvalid nwid]. split; [exact Logic.I|lia].
  - unfold zrange. apply lane_named_fit; try assumption; try lia. nia.
  - destruct (it_fin i); [|constructor]. unfold eop_named.
    assert (R : 0 <= it_cnt i - 1 + seg * seg_lanes c < lanes c) by nia.
    destruct (cfg_cases c G) as [(W & _ & LA & _)|(W & LA & _)]; rewrite W; destruct (kd c) eqn:K;
      repeat (apply Forall_cons; [cbn [fst snd nvalid nwid]; rewrite ?K, ?W; split; [tauto||lia|lia]|]); apply Forall_nil.
Qed.
Lemma items_fit c : good_cfg c -> forall l seg sop eop, Forall (it_ok c) l -> 0 <= seg -> 0 <= sop <= seg -> 0 <= eop <= seg -> seg + zlen l <= sg c ->
  fits_names (nwid c) (nvalid c) (items_named c seg sop eop l).
Proof.
  intros G. induction l as [|i l IH]; intros seg sop eop F Hs Hp He Hl; [constructor|]. inversion F; subst. rewrite zlen_cons in Hl. pose proof (zlen_nonneg l).
  cbn [items_named]. apply Forall_app. split; [apply item_fit; try assumption; lia|]. rewrite (inc_add _ sop), (inc_add _ eop).
  pose proof (inc_bound (it_first i)). pose proof (inc_bound (it_fin i)). apply IH; try assumption; lia.
Qed.
(** So a field reads as the sum of what was put there. *)
Lemma read_field c l n : good_cfg c -> Forall (it_ok c) l -> zlen l <= sg c -> nvalid c n -> rd (uors c (items_named c 0 0 0 l)) (noff c n) (nwid c n) = usum n (items_named c 0 0 0 l).
Proof.
  intros G F L V. apply (rd_ors name_eqb name_eqb_ok (noff c) (nwid c) (nvalid c)).
  - intros m. apply npos. exact G.
  - intros m k. apply ndisj. exact G.
  - apply items_fit; try assumption; lia.
  - exact V.
Qed.
(** The lanes *)
Lemma lane_read_par c f seg n : forall a o k, Z.of_nat a <= k < Z.of_nat a + Z.of_nat n -> o + (k - Z.of_nat a) < zlen (us_data f) ->
  usum (NPar (k + seg * seg_lanes c)) (lane_named c f seg (map Z.of_nat (List.seq a n)) o) = at_of (us_parity f) (o + (k - Z.of_nat a)).
Proof.
  induction n as [|n IH]; intros a o k Hk Ho; [lia|]. cbn [List.seq map lane_named]. replace (o <? zlen (us_data f)) with true by lia.
  unfold usum. rewrite (sum_app name_eqb). rewrite (sum_none name_eqb name_eqb_ok _ (if has_be c then _ else _)) by (destruct (has_be c); intros p P; [destruct P as [<-|[]]; discriminate|destruct P]).
  rewrite Z.lor_0_l. cbn [sum fold_right fst snd name_eqb]. fold (sum name_eqb (NPar (k + seg * seg_lanes c)) (lane_named c f seg (map Z.of_nat (List.seq (S a) n)) (o + 1))).
  destruct (Z.eq_dec k (Z.of_nat a)) as [->|D].
  - rewrite Z.eqb_refl. rewrite (sum_none name_eqb name_eqb_ok) by (intros p P E; apply lane_named_in in P; destruct P as (j & Hj & [X|(X & _)]); rewrite X in E; [injection E as E; lia|discriminate]).
    rewrite Z.lor_0_r. f_equal. lia.
  - replace (Z.of_nat a + seg * seg_lanes c =? k + seg * seg_lanes c) with false by lia. rewrite Z.lor_0_l. fold usum. rewrite IH by lia. f_equal. lia.
Qed.
Lemma lane_read_be c f seg n : has_be c = true -> forall a o k, Z.of_nat a <= k < Z.of_nat a + Z.of_nat n -> o + (k - Z.of_nat a) < zlen (us_data f) ->
  usum (NBe (k + seg * seg_lanes c)) (lane_named c f seg (map Z.of_nat (List.seq a n)) o) = at_of (us_byte_en f) (o + (k - Z.of_nat a)).
Proof.
  intros B. induction n as [|n IH]; intros a o k Hk Ho; [lia|]. cbn [List.seq map lane_named]. replace (o <? zlen (us_data f)) with true by lia. rewrite B.
  unfold usum. cbn [app sum fold_right fst snd name_eqb]. fold (sum name_eqb (NBe (k + seg * seg_lanes c)) (lane_named c f seg (map Z.of_nat (List.seq (S a) n)) (o + 1))).
  rewrite Z.lor_0_l. destruct (Z.eq_dec k (Z.of_nat a)) as [->|D].
  - rewrite Z.eqb_refl. rewrite (sum_none name_eqb name_eqb_ok) by (intros p P E; apply lane_named_in in P; destruct P as (j & Hj & [X|(X & _)]); rewrite X in E; [discriminate|injection E as E; lia]).
    rewrite Z.lor_0_r. f_equal. lia.
  - replace (Z.of_nat a + seg * seg_lanes c =? k + seg * seg_lanes c) with false by lia. rewrite Z.lor_0_l. fold usum. rewrite IH by lia. f_equal. lia.
Qed.
Lemma item_read_lane c seg sop eop i n : match n with NPar _ | NBe _ => True | _ => False end ->
  usum n (item_named c seg sop eop i) = usum n (lane_named c (it_f i) seg (zrange (seg_lanes c)) (it_off i)).
Proof.
  intros N. unfold item_named, usum. rewrite !(sum_app name_eqb).
  rewrite (sum_none name_eqb name_eqb_ok _ (if it_first i then _ else _)), (sum_none name_eqb name_eqb_ok _ (if us_disc _ then _ else _)), (sum_none name_eqb name_eqb_ok _ (if it_fin i then _ else _)).
  - rewrite !Z.lor_0_l, Z.lor_0_r. reflexivity.
  - destruct (it_fin i); intros p P E; [|destruct P]. apply eop_named_in in P. destruct P as ([X|X] & _); rewrite X in E; subst n; destruct N.
  - destruct (us_disc (it_f i)); intros p P E; [|destruct P]. destruct P as [<-|[]]. cbn in E. subst n. destruct N.
  - destruct (it_first i); intros p P E; [|destruct P]. apply sop_named_in in P. destruct P as (_ & P). rewrite E in P. destruct n; tauto.
Qed.
(** data and keep *)
Lemma lane_data_in c f seg n : forall a o p, In p (lane_data c f seg (map Z.of_nat (List.seq a n)) o) -> exists k, Z.of_nat a <= k < Z.of_nat a + Z.of_nat n /\ fst p = k + seg * seg_lanes c.
Proof.
  induction n as [|n IH]; intros a o p H; [destruct H|]. cbn [List.seq map lane_data] in H. destruct (o <? zlen (us_data f)).
  - destruct H as [<-|H]; [exists (Z.of_nat a); cbn [fst]; lia|]. apply IH in H. destruct H as (k & Hk & E). exists k. lia.
  - apply IH in H. destruct H as (k & Hk & E). exists k. lia.
Qed.
Lemma lane_data_fit c f seg n : good_frame c f -> forall a o, 0 <= o -> 0 <= seg * seg_lanes c ->
  fits_names (fun _ => 32) (fun l => 0 <= l) (lane_data c f seg (map Z.of_nat (List.seq a n)) o).
Proof.
  intros G. induction n as [|n IH]; intros a o Ho S; [constructor|]. cbn [List.seq map lane_data]. destruct (Z.ltb_spec o (zlen (us_data f))).
  - apply Forall_cons; [|apply IH; lia]. cbn [fst snd]. split; [lia|]. apply (at_of_all (fun d => 0 <= d < 2 ^ 32)); [exact (gf_data _ _ G)|lia].
  - apply IH; lia.
Qed.
Definition zsum := sum Z.eqb.
Definition ones_of (l : list (Z * Z)) := map (fun p : Z * Z => (fst p, 1)) l.
Lemma lane_read_data c f seg n : forall a o k, Z.of_nat a <= k < Z.of_nat a + Z.of_nat n -> 0 <= o <= zlen (us_data f) ->
  let here := o + (k - Z.of_nat a) <? zlen (us_data f) in
  zsum (k + seg * seg_lanes c) (lane_data c f seg (map Z.of_nat (List.seq a n)) o) = (if here then at_of (us_data f) (o + (k - Z.of_nat a)) else 0) /\
  zsum (k + seg * seg_lanes c) (ones_of (lane_data c f seg (map Z.of_nat (List.seq a n)) o)) = if here then 1 else 0.
Proof.
  induction n as [|n IH]; intros a o k Hk Ho; [lia|]. cbn [List.seq map lane_data]. cbv zeta. destruct (Z.ltb_spec o (zlen (us_data f))) as [L|L].
  - cbn [ones_of map]. unfold zsum. cbn [sum fold_right fst snd].
    fold (sum Z.eqb (k + seg * seg_lanes c) (lane_data c f seg (map Z.of_nat (List.seq (S a) n)) (o + 1))). fold (ones_of (lane_data c f seg (map Z.of_nat (List.seq (S a) n)) (o + 1))).
    fold (sum Z.eqb (k + seg * seg_lanes c) (ones_of (lane_data c f seg (map Z.of_nat (List.seq (S a) n)) (o + 1)))). fold zsum.
    destruct (Z.eq_dec k (Z.of_nat a)) as [->|D].
    + rewrite Z.eqb_refl. rewrite Z.sub_diag, Z.add_0_r. replace (o <? zlen (us_data f)) with true by lia. unfold zsum.
      rewrite !(sum_none Z.eqb Z.eqb_eq), !Z.lor_0_r; [split; reflexivity| |].
      * intros p P E. unfold ones_of in P. apply in_map_iff in P. destruct P as (q & <- & P). apply lane_data_in in P. destruct P as (j & Hj & X). cbn [fst] in E. lia.
      * intros p P E. apply lane_data_in in P. destruct P as (j & Hj & X). lia.
    + replace (Z.of_nat a + seg * seg_lanes c =? k + seg * seg_lanes c) with false by lia. rewrite !Z.lor_0_l.
      specialize (IH (S a) (o + 1) k ltac:(lia) ltac:(lia)). cbv zeta in IH. replace (o + 1 + (k - Z.of_nat (S a))) with (o + (k - Z.of_nat a)) in IH by lia. exact IH.
  - replace (o + (k - Z.of_nat a) <? zlen (us_data f)) with false by lia.
    assert (E : lane_data c f seg (map Z.of_nat (List.seq (S a) n)) o = []).
    { clear - L. generalize (map Z.of_nat (List.seq (S a) n)). induction l as [|x l IH]; [reflexivity|]. cbn [lane_data]. replace (o <? zlen (us_data f)) with false by lia. exact IH. }
    rewrite E. split; reflexivity.
Qed.
Lemma items_data_in c : 1 <= seg_lanes c -> forall l seg p, 0 <= seg -> In p (items_data c seg l) -> seg * seg_lanes c <= fst p < (seg + zlen l) * seg_lanes c.
Proof.
  intros L. induction l as [|i l IH]; intros seg p S H; [destruct H|]. cbn [items_data] in H. rewrite zlen_cons. pose proof (zlen_nonneg l). apply in_app_or in H. destruct H as [H|H].
  - unfold zrange in H. apply lane_data_in in H. destruct H as (k & Hk & ->). nia.
  - apply IH in H; [|lia]. nia.
Qed.
Lemma items_data_app c l l' : forall seg, items_data c seg (l ++ l') = items_data c seg l ++ items_data c (seg + zlen l) l'.
Proof.
  induction l as [|i l IH]; intros seg; [cbn; rewrite Z.add_0_r; reflexivity|]. cbn [app items_data]. rewrite IH, <- app_assoc, zlen_cons. do 3 f_equal. lia.
Qed.
Lemma items_data_fit c : 1 <= seg_lanes c -> forall l seg, 0 <= seg -> Forall (it_ok c) l -> fits_names (fun _ => 32) (fun l => 0 <= l) (items_data c seg l).
Proof.
  intros L. induction l as [|i l IH]; intros seg S F; [constructor|]. inversion F as [|? ? (G & Ho & _) F']; subst. cbn [items_data]. apply Forall_app. split.
  - apply lane_data_fit; try assumption; [lia|nia].
  - apply IH; [lia|exact F'].
Qed.
Lemma read_data c l1 i l2 k : 1 <= seg_lanes c -> Forall (it_ok c) (l1 ++ i :: l2) -> 0 <= k < seg_lanes c ->
  let lane := k + zlen l1 * seg_lanes c in
  (k < it_cnt i -> Z.land (Z.shiftr (dors (items_data c 0 (l1 ++ i :: l2))) (lane * 32)) 0xffffffff = at_of (us_data (it_f i)) (it_off i + k)) /\
  bit_of (kors (items_data c 0 (l1 ++ i :: l2))) lane = (k <? it_cnt i).
Proof.
  intros L F Hk lane. pose proof (zlen_nonneg l1) as Z1. assert (V : 0 <= lane) by (unfold lane; nia).
  assert (Oi : it_ok c i) by (rewrite Forall_forall in F; apply F; apply in_or_app; right; left; reflexivity). destruct Oi as (G & Ho & Hc).
  pose proof (items_data_fit c L _ 0 ltac:(lia) F) as FD.
  assert (FK : fits_names (fun _ => 1) (fun l => 0 <= l) (ones_of (items_data c 0 (l1 ++ i :: l2)))).
  { unfold fits_names, ones_of in *. rewrite Forall_forall in *. intros p P. apply in_map_iff in P. destruct P as (q & <- & P). apply FD in P. cbn [fst snd]. split; [tauto|lia]. }
  assert (SP : forall g, (forall p, fst (g p) = fst p) -> zsum lane (map g (items_data c 0 (l1 ++ i :: l2))) = zsum lane (map g (lane_data c (it_f i) (zlen l1) (zrange (seg_lanes c)) (it_off i)))).
  { intros g Hg. rewrite items_data_app. cbn [items_data]. rewrite !map_app. unfold zsum. rewrite !(sum_app Z.eqb). rewrite Z.add_0_l.
    rewrite (sum_none Z.eqb Z.eqb_eq lane (map g (items_data c 0 l1))), (sum_none Z.eqb Z.eqb_eq lane (map g (items_data c (zlen l1 + 1) l2))); [rewrite Z.lor_0_l, Z.lor_0_r; reflexivity| |].
    - intros p P E. apply in_map_iff in P. destruct P as (q & <- & P). rewrite Hg in E. apply items_data_in in P; [|exact L|lia]. unfold lane in E. nia.
    - intros p P E. apply in_map_iff in P. destruct P as (q & <- & P). rewrite Hg in E. apply items_data_in in P; [|exact L|lia]. unfold lane in E. nia. }
  pose proof (lane_read_data c (it_f i) (zlen l1) (Z.to_nat (seg_lanes c)) 0 (it_off i) k ltac:(lia) ltac:(lia)) as R. cbv zeta in R. fold lane in R. change (Z.of_nat 0) with 0 in R. rewrite Z.sub_0_r in R.
  fold (zrange (seg_lanes c)) in R. destruct R as (R1 & R2). split.
  - intros C. pose proof (SP (fun p => p) (fun p => eq_refl)) as E. rewrite !map_id in E.
    pose proof (rd_ors Z.eqb Z.eqb_eq (fun l => l * 32) (fun _ => 32) (fun l => 0 <= l) ltac:(cbv beta; intros; lia) ltac:(cbv beta; intros; lia) _ lane FD V) as X. unfold rd in X. change (Z.ones 32) with 0xffffffff in X.
    unfold dors. rewrite X. fold zsum. rewrite E, R1. replace (it_off i + k <? zlen (us_data (it_f i))) with true by lia. reflexivity.
  - pose proof (SP (fun p => (fst p, 1)) (fun p => eq_refl)) as E.
    pose proof (rd_ors Z.eqb Z.eqb_eq (fun l => l) (fun _ => 1) (fun l => 0 <= l) ltac:(cbv beta; intros; lia) ltac:(cbv beta; intros; lia) _ lane FK V) as X. rewrite rd_bit in X by exact V.
    unfold bit_of. rewrite land_pow by exact V. unfold kors. fold (ones_of (items_data c 0 (l1 ++ i :: l2))). fold zsum in X. unfold ones_of in X at 2. rewrite E in X. fold (ones_of (lane_data c (it_f i) (zlen l1) (zrange (seg_lanes c)) (it_off i))) in X. rewrite R2 in X.
    replace (it_off i + k <? zlen (us_data (it_f i))) with (k <? it_cnt i) in X by lia. destruct (Z.testbit _ lane), (k <? it_cnt i); cbn in X; congruence.
Qed.
