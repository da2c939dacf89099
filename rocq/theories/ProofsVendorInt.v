(** The interrupt interfaces of the device models (C56). *)
From Verif Require Import Base BaseProofs Bits ModelUtils ModelTlp ModelAttrs ModelCaps ModelCapList ModelConfig ModelMsi ModelTlCfg ModelUsCfg ModelVendorInt
  SpecRegs SpecCaps SpecConfig SpecTlCfg SpecUsCfg SpecVendorInt ProofsRegs ProofsCaps ProofsConfig ProofsConfigTop ProofsTlCfg ProofsUsCfg.

Definition pre {A S} (t : list A) (o : option (list A * S)) : option (list A * S) := match o with Some (t', s) => Some (t ++ t', s) | None => None end.
Lemma pre_pre {A S} (a b : list A) (o : option (list A * S)) : pre a (pre b o) = pre (a ++ b) o.
Proof. destruct o as [[]|]; [|reflexivity]. cbn. rewrite app_assoc. reflexivity. Qed.
Lemma pre_nil {A S} (o : option (list A * S)) : pre [] o = o.
Proof. destruct o as [[]|]; reflexivity. Qed.

(** ** Stratix 10 *)
Lemma s10_app l1 : forall l2 s, s10_run (l1 ++ l2) s = match s10_run l1 s with Some (t, s1) => pre t (s10_run l2 s1) | None => None end.
Proof.
  induction l1 as [|[i| |g] l IH]; intros l2 s; cbn [app s10_run].
  - rewrite pre_nil. reflexivity.
  - rewrite IH. destruct (s10_run l (s10_edge i s)) as [[t s1]|]; [|reflexivity]. destruct (s10_run l2 s1) as [[]|]; reflexivity.
  - destruct (s10_sent s); [apply IH|reflexivity].
  - apply IH.
Qed.
Lemma s10_keep ph w : ph = ASend \/ (exists e, ph = ADead e) -> forall a fs lg, s10_run (map svevent w) (mkSst ph a fs lg) = Some (repeat a (svedges w), mkSst ph a (svapply w fs) lg).
Proof.
  intros P. induction w as [|[i|g] w IH]; intros a fs lg; [reflexivity| |].
  - cbn [map svevent s10_run]. replace (s10_edge i (mkSst ph a fs lg)) with (mkSst ph a fs lg) by (destruct P as [-> | (e & ->)]; reflexivity). rewrite IH. reflexivity.
  - cbn [map svevent s10_run]. unfold s10_other. cbn [a_ph a_ack a_fns a_log]. rewrite IH. reflexivity.
Qed.
Lemma s10_hold w : req_is true w -> forall fs lg, s10_run (map svevent w) (mkSst AHold false fs lg) = Some (repeat false (svedges w), mkSst AHold false (svapply w fs) lg).
Proof.
  induction w as [|[i|g] w IH]; intros R fs lg; [reflexivity| |].
  - cbn [map svevent s10_run]. pose proof (Forall_inv R) as Ri. cbn in Ri. unfold s10_edge. cbn [a_ph a_ack a_fns a_log]. rewrite Ri, (IH (Forall_inv_tail R)). reflexivity.
  - cbn [map svevent s10_run]. unfold s10_other. cbn [a_ph a_ack a_fns a_log]. rewrite (IH (Forall_inv_tail R)). reflexivity.
Qed.
Lemma s10_ack w z : req_is true w -> a_req z = false -> forall fs lg,
  s10_run (map svevent w ++ [SEdge z]) (mkSst AAck true fs lg) = Some (true :: repeat false (svedges w), mkSst AIdle false (svapply w fs) lg).
Proof.
  intros R Z. induction w as [|[i|g] w IH]; intros fs lg.
  - cbn. rewrite Z. reflexivity.
  - cbn [map svevent s10_run app]. pose proof (Forall_inv R) as Ri. cbn in Ri. unfold s10_edge at 1. cbn [a_ph a_ack a_fns a_log]. rewrite Ri, s10_app, (s10_hold w (Forall_inv_tail R)).
    cbn [s10_run pre]. unfold s10_edge. cbn [a_ph a_ack a_fns a_log]. rewrite Z. replace (svedges (VEdge i :: w)) with (svedges w + 1)%nat by (unfold svedges; cbn [filter length]; lia).
    rewrite repeat_app. reflexivity.
  - cbn [map svevent s10_run app]. unfold s10_other. cbn [a_ph a_ack a_fns a_log]. rewrite (IH (Forall_inv_tail R)). reflexivity.
Qed.
Lemma hseg_run x fs lg t m fs' : hseg_ok x -> hseg_do x fs = Some (t, m, fs') ->
  s10_run (hseg_events x) (mkSst AIdle false fs lg) = Some (t, mkSst AIdle false fs' (lg ++ m)).
Proof.
  destruct x as [w|i w1 w2 z]; cbn [hseg_ok hseg_do hseg_events]; intros K E.
  - injection E as <- <- <-. rewrite app_nil_r. destruct w as [i|g]; [|reflexivity]. apply Forall_inv in K. cbn in K |- *. rewrite K. reflexivity.
  - destruct K as (K1 & K2 & K3). destruct (nth_error fs (a_fn i)) as [f|] eqn:N; [|discriminate]. destruct (issue_msi (w_ms f) (a_num i)) as [[a d]|] eqn:I; [|discriminate].
    injection E as <- <- <-. cbn [s10_run]. unfold s10_edge. cbn [a_ph a_ack a_fns a_log]. rewrite K1, N, I, s10_app, s10_keep by (left; reflexivity).
    cbn [s10_run app]. unfold s10_sent. cbn [a_ph a_fns a_log]. rewrite (s10_ack w2 z K2 K3). reflexivity.
Qed.
Theorem s10_fwd l : forall fs lg t m fs', Forall hseg_ok l -> hsegs_do l fs = Some (t, m, fs') ->
  s10_run (flat_map hseg_events l) (mkSst AIdle false fs lg) = Some (t, mkSst AIdle false fs' (lg ++ m)).
Proof.
  induction l as [|x l IH]; intros fs lg t m fs' K E.
  - injection E as <- <- <-. rewrite app_nil_r. reflexivity.
  - cbn [hsegs_do] in E. destruct (hseg_do x fs) as [[[t1 m1] fs1]|] eqn:E1; [|discriminate]. destruct (hsegs_do l fs1) as [[[t2 m2] fs2]|] eqn:E2; [|discriminate]. injection E as <- <- <-.
    cbn [flat_map]. rewrite s10_app, (hseg_run x _ _ _ _ _ (Forall_inv K) E1), (IH _ _ _ _ _ (Forall_inv_tail K) E2). cbn [pre]. rewrite <- app_assoc. reflexivity.
Qed.
Lemma split_sent r : (exists w, r = map svevent w) \/ exists w r', r = map svevent w ++ SSent :: r'.
Proof.
  induction r as [|[i| |g] r IH]; [left; exists []; reflexivity| |right; exists [], r; reflexivity|].
  - destruct IH as [(w & ->)|(w & r' & ->)]; [left; exists (VEdge i :: w); reflexivity|right; exists (VEdge i :: w), r'; reflexivity].
  - destruct IH as [(w & ->)|(w & r' & ->)]; [left; exists (VOther g :: w); reflexivity|right; exists (VOther g :: w), r'; reflexivity].
Qed.
Lemma split_release r : exists w, req_is true w /\ (r = map svevent w \/ (exists z r', a_req z = false /\ r = map svevent w ++ SEdge z :: r') \/ exists r', r = map svevent w ++ SSent :: r').
Proof.
  induction r as [|[i| |g] r (w & Rw & IH)].
  - exists []. split; [constructor|left; reflexivity].
  - destruct (a_req i) eqn:Q.
    + exists (VEdge i :: w). split; [constructor; [exact Q|exact Rw]|]. destruct IH as [-> | [(z & r' & Z & ->)|(r' & ->)]]; [left; reflexivity|right; left; exists z, r'; auto|right; right; exists r'; reflexivity].
    + exists []. split; [constructor|]. right; left. exists i, r. auto.
  - exists []. split; [constructor|]. right; right. exists r. reflexivity.
  - exists (VOther g :: w). split; [constructor; [exact Logic.I|exact Rw]|]. destruct IH as [-> | [(z & r' & Z & ->)|(r' & ->)]]; [left; reflexivity|right; left; exists z, r'; auto|right; right; exists r'; reflexivity].
Qed.
(** While the request is held the phase is not idle, and no message waits. *)
Lemma held_phase w : req_is true w -> forall ph a fs lg, ph = AAck \/ ph = AHold ->
  exists t ph' a', s10_run (map svevent w) (mkSst ph a fs lg) = Some (t, mkSst ph' a' (svapply w fs) lg) /\ (ph' = AAck \/ ph' = AHold).
Proof.
  induction w as [|[i|g] w IH]; intros R ph a fs lg P.
  - exists [], ph, a. split; [reflexivity|exact P].
  - pose proof (Forall_inv R) as Ri. cbn in Ri. cbn [map svevent s10_run].
    assert (exists a1, s10_edge i (mkSst ph a fs lg) = mkSst AHold a1 fs lg) as (a1 & ->).
    { destruct P as [-> | ->]; eexists; unfold s10_edge; cbn [a_ph a_ack a_fns a_log]; rewrite Ri; reflexivity. }
    destruct (IH (Forall_inv_tail R) AHold a1 fs lg (or_intror eq_refl)) as (t & ph' & a' & -> & P'). eexists _, _, _. split; [reflexivity|exact P'].
  - cbn [map svevent s10_run]. unfold s10_other. cbn [a_ph a_ack a_fns a_log]. destruct (IH (Forall_inv_tail R) ph a (g fs) lg P) as (t & ph' & a' & -> & P'). exists t, ph', a'. split; [reflexivity|exact P'].
Qed.
Lemma dead_run l : forall e a fs lg t s, s10_run l (mkSst (ADead e) a fs lg) = Some (t, s) -> a_ph s = ADead e.
Proof.
  induction l as [|[i| |g] l IH]; intros e a fs lg t s E; cbn [s10_run] in E.
  - injection E as <- <-. reflexivity.
  - change (s10_edge i (mkSst (ADead e) a fs lg)) with (mkSst (ADead e) a fs lg) in E. destruct (s10_run l _) as [[t1 s1]|] eqn:R; [|discriminate]. injection E as <- <-. exact (IH _ _ _ _ _ _ R).
  - discriminate.
  - exact (IH _ _ _ _ _ _ E).
Qed.
Lemma s10_dead l : forall e a fs lg t s, s10_run l (mkSst (ADead e) a fs lg) = Some (t, s) -> a_log s = lg /\ t = repeat a (length t).
Proof.
  induction l as [|[i| |g] l IH]; intros e a fs lg t s E; cbn [s10_run] in E.
  - injection E as <- <-. auto.
  - change (s10_edge i (mkSst (ADead e) a fs lg)) with (mkSst (ADead e) a fs lg) in E. destruct (s10_run l _) as [[t1 s1]|] eqn:R; [|discriminate]. injection E as <- <-.
    destruct (IH _ _ _ _ _ _ R) as (A & B). cbn [length repeat a_ack]. rewrite <- B. auto.
  - discriminate.
  - exact (IH _ _ _ _ _ _ E).
Qed.
Theorem s10_all n : forall es fs lg t s, (length es <= n)%nat -> s10_run es (mkSst AIdle false fs lg) = Some (t, s) -> a_ph s = AIdle ->
  exists l m fs', Forall hseg_ok l /\ es = flat_map hseg_events l /\ hsegs_do l fs = Some (t, m, fs') /\ s = mkSst AIdle false fs' (lg ++ m).
Proof.
  induction n as [|n IH]; intros es fs lg t s L R P.
  { destruct es; [|cbn in L; lia]. injection R as <- <-. exists [], [], fs. split; [constructor|]. rewrite app_nil_r. auto. }
  (* one segment, then the rest *)
  assert (Step : forall x r t1 m1 fs1, hseg_ok x -> es = hseg_events x ++ r -> (length r <= n)%nat -> hseg_do x fs = Some (t1, m1, fs1) ->
    exists l m fs', Forall hseg_ok l /\ es = flat_map hseg_events l /\ hsegs_do l fs = Some (t, m, fs') /\ s = mkSst AIdle false fs' (lg ++ m)).
  { intros x r t1 m1 fs1 K E Lr D. rewrite E, s10_app, (hseg_run x _ lg _ _ _ K D) in R. destruct (s10_run r _) as [[t2 s2]|] eqn:R2; [|discriminate]. cbn [pre] in R. injection R as <- <-.
    destruct (IH _ _ _ _ _ Lr R2 P) as (l & m & fs' & A & B & C & Q). exists (x :: l), (m1 ++ m), fs'. split; [constructor; assumption|].
    split; [rewrite E, B; reflexivity|]. split; [cbn [hsegs_do]; rewrite D, C; reflexivity|]. rewrite Q, app_assoc. reflexivity. }
  destruct es as [|[i| |g] es].
  - injection R as <- <-. exists [], [], fs. split; [constructor|]. rewrite app_nil_r. auto.
  - destruct (a_req i) eqn:Q.
    2:{ eapply (Step (HQuiet (VEdge i)) es); [constructor; [exact Q|constructor]|reflexivity|cbn in L; lia|reflexivity]. }
    cbn [s10_run] in R. unfold s10_edge in R. cbn [a_ph a_ack a_fns a_log] in R. rewrite Q in R.
    destruct (nth_error fs (a_fn i)) as [f|] eqn:N.
    2:{ destruct (s10_run es _) as [[t1 s1]|] eqn:D; [|discriminate]. injection R as <- <-. apply dead_run in D. congruence. }
    destruct (issue_msi (w_ms f) (a_num i)) as [[a d]|e] eqn:I.
    2:{ destruct (s10_run es _) as [[t1 s1]|] eqn:D; [|discriminate]. injection R as <- <-. apply dead_run in D. congruence. }
    destruct (split_sent es) as [(w & ->)|(w & r' & ->)].
    { rewrite s10_keep in R by (left; reflexivity). injection R as <- <-. discriminate. }
    rewrite s10_app, s10_keep in R by (left; reflexivity). cbn [s10_run] in R. unfold s10_sent in R. cbn [a_ph a_fns a_log] in R.
    destruct (split_release r') as (w2 & R2 & [-> | [(z & r2 & Z & ->)|(r2 & ->)]]).
    + destruct (held_phase w2 R2 AAck true (svapply w fs) (lg ++ [mkIm (a_fn i) (a_tc i) a d]) (or_introl eq_refl)) as (t2 & ph & a' & H & Hp).
      rewrite H in R. injection R as <- <-. destruct Hp as [-> | ->]; discriminate.
    + eapply (Step (HMsg i w w2 z) r2); [split; [exact Q|split; assumption]| | |cbn [hseg_do]; rewrite N, I; reflexivity].
      * cbn [hseg_events app]. rewrite <- !app_assoc. cbn [app]. rewrite <- app_assoc. reflexivity.
      * cbn [length] in L. rewrite !app_length in L. cbn [length] in L. rewrite app_length in L. cbn [length] in L. lia.
    + destruct (held_phase w2 R2 AAck true (svapply w fs) (lg ++ [mkIm (a_fn i) (a_tc i) a d]) (or_introl eq_refl)) as (t2 & ph & a' & H & Hp).
      rewrite s10_app, H in R. cbn [s10_run] in R. unfold s10_sent in R. cbn [a_ph] in R. destruct Hp as [-> | ->]; discriminate.
  - discriminate.
  - eapply (Step (HQuiet (VOther g)) es); [constructor; [exact Logic.I|constructor]|reflexivity|cbn in L; lia|reflexivity].
Qed.

(** ** UltraScale *)
Lemma one_bit l v : forall n, filter (fun k => zbool (Z.land (Z.shiftr v k) 1)) l = [n] -> (forall k, In k l -> 0 <= k) -> In n l /\ forall k, In k l -> Z.testbit v k = (k =? n).
Proof.
  assert (B : forall k, 0 <= k -> zbool (Z.land (Z.shiftr v k) 1) = Z.testbit v k).
  { intros k K. rewrite Z.land_ones with (n := 1) by lia. change (2 ^ 1) with 2. rewrite <- Z.bit0_mod, Z.shiftr_spec by lia. rewrite Z.add_0_l. destruct (Z.testbit v k); reflexivity. }
  intros n F P. assert (In n (filter (fun k => zbool (Z.land (Z.shiftr v k) 1)) l)) as Hn by (rewrite F; left; reflexivity). apply filter_In in Hn as (Hn & Tn).
  split; [exact Hn|]. intros k K. rewrite B in Tn by auto. destruct (Z.eqb_spec k n) as [-> | N]; [exact Tn|].
  destruct (Z.testbit v k) eqn:T; [|reflexivity]. exfalso. apply N. assert (In k (filter (fun k => zbool (Z.land (Z.shiftr v k) 1)) l)) as Hk by (apply filter_In; rewrite B by auto; auto).
  rewrite F in Hk. destruct Hk as [Hk|[]]. auto.
Qed.
Lemma in_range k n : In k (map Z.of_nat (List.seq 0 n)) <-> 0 <= k < Z.of_nat n.
Proof. rewrite in_map_iff. split; [intros (j & <- & J); apply in_seq in J; lia|intros K; exists (Z.to_nat k); split; [lia|apply in_seq; lia]]. Qed.
Lemma int_bits_pow n : 0 <= n < 32 -> int_bits (2 ^ n) = [n].
Proof.
  intros H. assert (forallb (fun n => match int_bits (2 ^ n) with [m] => m =? n | _ => false end) (map Z.of_nat (List.seq 0 32)) = true) as F by (vm_compute; reflexivity).
  rewrite forallb_forall in F. specialize (F n (proj2 (in_range n 32) H)). destruct (int_bits (2 ^ n)) as [|m []]; try discriminate. apply Z.eqb_eq in F. congruence.
Qed.
Lemma pow_of_bit v n : 0 <= v < 2 ^ 32 -> 0 <= n < 32 -> (forall k, 0 <= k < 32 -> Z.testbit v k = (k =? n)) -> v = 2 ^ n.
Proof.
  intros V N B. apply Z.bits_inj'. intros k K. rewrite Z.pow2_bits_eqb by lia. rewrite Z.eqb_sym. destruct (Z.ltb_spec k 32); [apply B; lia|].
  rewrite (Z.eqb_sym). destruct (Z.eqb_spec n k); [lia|]. destruct (Z.eq_dec v 0) as [-> |]; [apply Z.bits_0|]. apply Z.bits_above_log2; [lia|].
  assert (Z.log2 v < 32) by (apply Z.log2_lt_pow2; lia). lia.
Qed.
Lemma vector_some v n : vector v = Some n <-> 0 <= n < 32 /\ v = 2 ^ n.
Proof.
  unfold vector. split.
  - intros F. apply find_some in F as (I & E). apply in_range in I. apply Z.eqb_eq in E. auto.
  - intros (N & ->). destruct (find _ _) as [m|] eqn:F.
    + apply find_some in F as (I & E). apply in_range in I. apply Z.eqb_eq in E. apply Z.pow_inj_r in E; try lia. congruence.
    + pose proof (find_none _ _ F n (proj2 (in_range n 32) N)) as E. cbn beta in E. rewrite Z.eqb_refl in E. discriminate.
Qed.
Lemma int_bits_one v n : 0 <= v < 2 ^ 32 -> int_bits v = [n] -> 0 <= n < 32 /\ v = 2 ^ n.
Proof.
  intros V. unfold int_bits. intros B. destruct (one_bit (map Z.of_nat (List.seq 0 32)) v n B) as (I & B'); [intros k K; apply in_range in K; lia|].
  apply in_range in I. split; [lia|]. apply pow_of_bit; [exact V|lia|]. intros k K. apply B', in_range. lia.
Qed.
Lemma int_bits_vector v : 0 <= v < 2 ^ 32 -> match int_bits v with [n] => vector v = Some n | _ => vector v = None end.
Proof.
  intros V. pose proof (vector_some v) as S. pose proof (int_bits_one v) as B. pose proof int_bits_pow as P. destruct (vector v) as [n|].
  - destruct (proj1 (S n) eq_refl) as (N & E). rewrite E, (P n N). reflexivity.
  - destruct (int_bits v) as [|n [|? ?]]; [reflexivity| |reflexivity]. apply S. exact (B n V eq_refl).
Qed.
Lemma on_change k g l : on_nth k g l = change_nth k g l.
Proof.
  unfold on_nth. revert k. induction l as [|f l IH]; intros [|k]; try reflexivity. cbn [nth_error change_nth]. rewrite <- IH. destruct (nth_error l k); reflexivity.
Qed.
Lemma pending_is i fs : (if i_pen i then on_nth (i_pfn i) (set_ms (aset ms_msi_pending_bits (i_pend i))) fs else fs) = pending i fs.
Proof. unfold pending. destruct (i_pen i); [apply on_change|reflexivity]. Qed.

(** The outputs at a sample, with [fs] the functions when the MSI part is done and [fs2] those with the pending bits. *)
Definition int_outs (plus : bool) (i : iin) (fs fs2 : list cfn) (o : iout) : iout :=
  let n := if plus then 4%nat else 2%nat in
  mkIout (o_en o) (o_sent o) (mm_word 2 fs) (if Nat.eqb (i_sel i) 15 then 0 else match nth_error fs (i_sel i) with Some f => w_ms f ms_msi_mask_bits | None => 0 end)
    (xen_word n fs2) (xmask_word n fs2) 0.
Lemma rest_eq plus i ph o fs lg : int_rest plus i (mkIst ph o fs lg) =
  let fs2 := pending i fs in let o2 := int_outs plus i fs fs2 o in
  match msix_of i fs2 with
  | None => mkIst IIdle o2 fs2 lg
  | Some (Err e) => mkIst (IDead e) o2 fs2 lg
  | Some (Ok (a, d)) => mkIst (IMsix i) o2 fs2 (lg ++ [mkIm (i_fn i) (i_attr i) a d])
  end.
Proof.
  unfold int_rest. cbn [i_fns i_out i_log]. rewrite pending_is. cbv zeta. unfold msix_of, int_outs, int_die. cbn [i_fns i_out i_log].
  destruct (nth_error (pending i fs) (i_fn i)); destruct (i_msix i); reflexivity.
Qed.
Lemma edge_eq plus i o fs lg : 0 <= i_msi i < 2 ^ 32 -> int_edge plus i (mkIst IIdle o fs lg) =
  let o1 := set_sent 0 (set_en (en_word 2 fs) o) in
  match msi_of i fs with
  | None => int_rest plus i (mkIst IIdle o1 fs lg)
  | Some (Err e) => mkIst (IDead e) o1 fs lg
  | Some (Ok (a, d)) => mkIst (IMsi i) o1 fs (lg ++ [mkIm (i_fn i) (i_attr i) a d])
  end.
Proof.
  intros V. unfold int_edge, msi_of. cbn [i_ph i_fns i_out i_log]. cbv zeta. apply int_bits_vector in V.
  destruct (int_bits (i_msi i)) as [|n [|? ?]]; rewrite V; try reflexivity. destruct (nth_error fs (i_fn i)); [|reflexivity]. destruct (issue_msi _ n) as [[a d]|]; reflexivity.
Qed.
Lemma int_app plus l1 : forall l2 s, int_run plus (l1 ++ l2) s = match int_run plus l1 s with Some (t, s1) => pre t (int_run plus l2 s1) | None => None end.
Proof.
  induction l1 as [|[i| |g] l IH]; intros l2 s; cbn [app int_run].
  - rewrite pre_nil. reflexivity.
  - rewrite IH. destruct (int_run plus l (int_edge plus i s)) as [[t s1]|]; [|reflexivity]. destruct (int_run plus l2 s1) as [[]|]; reflexivity.
  - destruct (int_sent plus s); [apply IH|reflexivity].
  - apply IH.
Qed.
Lemma int_keep plus ph w : ph <> IIdle -> forall o fs lg, int_run plus (map wevent w) (mkIst ph o fs lg) = Some (repeat (o_sent o, o_xsent o) (wedges w), mkIst ph o (wapply w fs) lg).
Proof.
  intros P. induction w as [|[i|g] w IH]; intros o fs lg; [reflexivity| |].
  - cbn [map wevent int_run]. replace (int_edge plus i (mkIst ph o fs lg)) with (mkIst ph o fs lg) by (destruct ph; [congruence| | |]; reflexivity). rewrite IH. reflexivity.
  - cbn [map wevent int_run]. unfold int_other. cbn [i_ph i_out i_fns i_log]. rewrite IH. reflexivity.
Qed.
Lemma int_dead_run plus l : forall e o fs lg t s, int_run plus l (mkIst (IDead e) o fs lg) = Some (t, s) ->
  i_ph s = IDead e /\ i_log s = lg /\ i_out s = o /\ t = repeat (o_sent o, o_xsent o) (length t).
Proof.
  induction l as [|[i| |g] l IH]; intros e o fs lg t s E; cbn [int_run] in E.
  - injection E as <- <-. auto.
  - change (int_edge plus i (mkIst (IDead e) o fs lg)) with (mkIst (IDead e) o fs lg) in E. destruct (int_run plus l _) as [[t1 s1]|] eqn:R; [|discriminate]. injection E as <- <-.
    destruct (IH _ _ _ _ _ _ R) as (A & B & C & D). cbn [length repeat i_out]. rewrite <- D. auto.
  - discriminate.
  - exact (IH _ _ _ _ _ _ E).
Qed.
Lemma split_wait r : (exists w, r = map wevent w) \/ exists w r', r = map wevent w ++ ISent :: r'.
Proof.
  induction r as [|[i| |g] r IH]; [left; exists []; reflexivity| |right; exists [], r; reflexivity|].
  - destruct IH as [(w & ->)|(w & r' & ->)]; [left; exists (WEdge i :: w); reflexivity|right; exists (WEdge i :: w), r'; reflexivity].
  - destruct IH as [(w & ->)|(w & r' & ->)]; [left; exists (WOther g :: w); reflexivity|right; exists (WOther g :: w), r'; reflexivity].
Qed.

(** Second half of a sample. *)
Definition half2 (i : iin) (b : option (list wev)) (fs : list cfn) (sent : Z) : option (list (Z * Z) * list imsg * list cfn * (Z * Z)) :=
  match wanted (msix_of i (pending i fs)) i with
  | None => None
  | Some mx => match timed mx b (pending i fs) with None => None | Some (l2, fs3, n2) => Some (repeat (sent, 0) n2, l2, fs3, (sent, zlen l2)) end
  end.
Lemma sample_halves i a b fs sx : sample i a b fs sx =
  match wanted (msi_of i fs) i with
  | None => None
  | Some m => match timed m a fs with
              | None => None
              | Some (l1, fs1, n1) => match half2 i b fs1 (zlen l1) with Some (t, l2, fs3, y) => Some (sx :: repeat (0, snd sx) n1 ++ t, l1 ++ l2, fs3, y) | None => None end
              end
  end.
Proof.
  unfold sample, half2. destruct (wanted (msi_of i fs) i) as [m|]; [|reflexivity]. destruct (timed m a fs) as [[[l1 fs1] n1]|]; [|reflexivity]. cbv zeta.
  destruct (wanted (msix_of i (pending i fs1)) i) as [mx|]; [|reflexivity]. destruct (timed mx b (pending i fs1)) as [[[l2 fs3] n2]|]; reflexivity.
Qed.
Lemma half2_run plus i b o fs lg t m fs' y : half2 i b fs (o_sent o) = Some (t, m, fs', y) -> exists o',
  int_run plus (wait_events b) (int_rest plus i (mkIst IIdle o fs lg)) = Some (t, mkIst IIdle o' fs' (lg ++ m)) /\ y = (o_sent o', o_xsent o') /\
  exists x, o' = set_xsent x (int_outs plus i fs (pending i fs) o).
Proof.
  unfold half2. rewrite rest_eq. cbv zeta. destruct (msix_of i (pending i fs)) as [[[a d]|e]|]; cbn [wanted]; [|discriminate|].
  - destruct b as [w|]; cbn [timed]; [|discriminate]. intros E. injection E as <- <- <- <-. cbn [wait_events]. rewrite int_app, int_keep by discriminate.
    cbn [int_run]. unfold int_sent. cbn [i_ph i_out i_fns i_log pre]. rewrite app_nil_r. eexists. split; [reflexivity|]. split; [reflexivity|]. exists 1. reflexivity.
  - destruct b as [w|]; cbn [timed]; [discriminate|]. intros E. injection E as <- <- <- <-. cbn [wait_events int_run]. rewrite app_nil_r.
    eexists. split; [reflexivity|]. split; [reflexivity|]. exists 0. reflexivity.
Qed.
Lemma sample_run plus i a b o fs lg t m fs' y : 0 <= i_msi i < 2 ^ 32 -> sample i a b fs (o_sent o, o_xsent o) = Some (t, m, fs', y) ->
  exists o', int_run plus (iseg_events (GSample i a b)) (mkIst IIdle o fs lg) = Some (t, mkIst IIdle o' fs' (lg ++ m)) /\ y = (o_sent o', o_xsent o').
Proof.
  intros V. rewrite sample_halves. cbn [iseg_events int_run]. rewrite edge_eq by exact V. cbv zeta. destruct (msi_of i fs) as [[[x d]|e]|]; cbn [wanted]; [|discriminate|].
  - destruct a as [w|]; cbn [timed]; [|discriminate]. cbn [wait_events]. destruct (half2 _ _ _ _) as [[[[t2 m2] fs3] y2]|] eqn:H; [|discriminate]. intros E. injection E as <- <- <- <-.
    rewrite <- app_assoc, int_app, int_keep by discriminate. cbn [app int_run]. unfold int_sent. cbn [i_ph i_out i_fns i_log].
    destruct (half2_run plus i b (set_sent 1 (set_sent 0 (set_en (en_word 2 fs) o))) (wapply w fs) (lg ++ [mkIm (i_fn i) (i_attr i) x d]) _ _ _ _ H) as (o' & R & Y & _).
    rewrite R. cbn [pre]. exists o'. split; [rewrite <- app_assoc; reflexivity|exact Y].
  - destruct a as [w|]; cbn [timed]; [discriminate|]. cbn [wait_events app]. destruct (half2 _ _ _ _) as [[[[t2 m2] fs3] y2]|] eqn:H; [|discriminate]. intros E. injection E as <- <- <- <-.
    destruct (half2_run plus i b (set_sent 0 (set_en (en_word 2 fs) o)) fs lg _ _ _ _ H) as (o' & R & Y & _). rewrite R. exists o'. split; [reflexivity|exact Y].
Qed.
Theorem int_fwd plus l : forall o fs lg t m fs' y, Forall seg_wide l -> isegs_do l fs (o_sent o, o_xsent o) = Some (t, m, fs', y) ->
  exists o', int_run plus (flat_map iseg_events l) (mkIst IIdle o fs lg) = Some (t, mkIst IIdle o' fs' (lg ++ m)) /\ y = (o_sent o', o_xsent o').
Proof.
  induction l as [|x l IH]; intros o fs lg t m fs' y W E.
  - injection E as <- <- <- <-. exists o. rewrite app_nil_r. split; reflexivity.
  - cbn [isegs_do] in E. destruct (match x with GOther _ => _ | GSample _ _ _ => _ end) as [[[[t1 m1] fs1] y1]|] eqn:E1; [|discriminate].
    destruct (isegs_do l fs1 y1) as [[[[t2 m2] fs2] y2]|] eqn:E2; [|discriminate]. injection E as <- <- <- <-. cbn [flat_map]. rewrite int_app.
    assert (exists o1, int_run plus (iseg_events x) (mkIst IIdle o fs lg) = Some (t1, mkIst IIdle o1 fs1 (lg ++ m1)) /\ y1 = (o_sent o1, o_xsent o1)) as (o1 & R1 & Y1).
    { destruct x as [g|i a b]; [injection E1 as <- <- <- <-; exists o; rewrite app_nil_r; split; reflexivity|]. exact (sample_run plus i a b o fs lg _ _ _ _ (Forall_inv W) E1). }
    rewrite R1. subst y1. destruct (IH o1 fs1 (lg ++ m1) _ _ _ _ (Forall_inv_tail W) E2) as (o' & R & Y). rewrite R. exists o'. cbn [pre]. rewrite <- app_assoc. split; [reflexivity|exact Y].
Qed.
(** The second half: what is left of a run that ends idle begins with the wait, if there is one. *)
Lemma half2_split plus i r o fs lg t s : int_run plus r (int_rest plus i (mkIst IIdle o fs lg)) = Some (t, s) -> i_ph s = IIdle ->
  exists b r' t2 m2 fs3 y2, r = wait_events b ++ r' /\ half2 i b fs (o_sent o) = Some (t2, m2, fs3, y2).
Proof.
  rewrite rest_eq. cbv zeta. unfold half2. intros R P. destruct (msix_of i (pending i fs)) as [[[a d]|e]|]; cbn [wanted].
  - destruct (split_wait r) as [(w & ->)|(w & r' & ->)].
    + rewrite int_keep in R by discriminate. injection R as <- <-. discriminate.
    + exists (Some w), r'. cbn [wait_events timed]. rewrite <- app_assoc. do 4 eexists. split; reflexivity.
  - apply int_dead_run in R as (R & _). congruence.
  - exists None, r. cbn [wait_events timed app]. do 4 eexists. split; reflexivity.
Qed.
Theorem int_all plus n : forall es o fs lg t s, (length es <= n)%nat -> wide es -> int_run plus es (mkIst IIdle o fs lg) = Some (t, s) -> i_ph s = IIdle ->
  exists l m fs', Forall seg_wide l /\ es = flat_map iseg_events l /\ isegs_do l fs (o_sent o, o_xsent o) = Some (t, m, fs', (o_sent (i_out s), o_xsent (i_out s))) /\
    i_fns s = fs' /\ i_log s = lg ++ m.
Proof.
  induction n as [|n IH]; intros es o fs lg t s L W R P.
  { destruct es; [|cbn in L; lia]. injection R as <- <-. exists [], [], fs. cbn. rewrite app_nil_r. auto. }
  assert (Step : forall x r t1 m1 fs1 o1, seg_wide x -> es = iseg_events x ++ r -> (length r <= n)%nat ->
    int_run plus (iseg_events x) (mkIst IIdle o fs lg) = Some (t1, mkIst IIdle o1 fs1 (lg ++ m1)) ->
    match x with GOther g => Some ([], [], g fs, (o_sent o, o_xsent o)) | GSample i a b => sample i a b fs (o_sent o, o_xsent o) end = Some (t1, m1, fs1, (o_sent o1, o_xsent o1)) ->
    exists l m fs', Forall seg_wide l /\ es = flat_map iseg_events l /\ isegs_do l fs (o_sent o, o_xsent o) = Some (t, m, fs', (o_sent (i_out s), o_xsent (i_out s))) /\
      i_fns s = fs' /\ i_log s = lg ++ m).
  { intros x r t1 m1 fs1 o1 K E Lr X D. rewrite E, int_app, X in R. destruct (int_run plus r _) as [[t2 s2]|] eqn:R2; [|discriminate]. cbn [pre] in R. injection R as <- <-.
    assert (Wr : wide r) by (rewrite E in W; apply Forall_app in W; apply W).
    destruct (IH _ _ _ _ _ _ Lr Wr R2 P) as (l & m & fs' & A & B & C & Q & G). exists (x :: l), (m1 ++ m), fs'. split; [constructor; assumption|].
    split; [rewrite E, B; reflexivity|]. split; [cbn [isegs_do]; rewrite D, C; reflexivity|]. split; [exact Q|]. rewrite G, app_assoc. reflexivity. }
  destruct es as [|[i| |g] es].
  - injection R as <- <-. exists [], [], fs. cbn. rewrite app_nil_r. auto.
  - pose proof (Forall_inv W) as V. cbn beta iota in V.
    assert (exists a b r', es = wait_events a ++ wait_events b ++ r' /\ exists t1 m1 fs1 y1, sample i a b fs (o_sent o, o_xsent o) = Some (t1, m1, fs1, y1)) as (a & b & r' & E & t1 & m1 & fs1 & y1 & D).
    { cbn [int_run] in R. rewrite edge_eq in R by exact V. cbv zeta in R. destruct (int_run plus es _) as [[t1 s1]|] eqn:R1; [|discriminate]. injection R as <- <-. setoid_rewrite sample_halves.
      destruct (msi_of i fs) as [[[x d]|e]|]; cbn [wanted].
      - destruct (split_wait es) as [(w & ->)|(w & r' & ->)].
        + rewrite int_keep in R1 by discriminate. injection R1 as <- <-. discriminate.
        + rewrite int_app, int_keep in R1 by discriminate. cbn [int_run] in R1. unfold int_sent in R1. cbn [i_ph i_out i_fns i_log] in R1.
          destruct (int_run plus r' _) as [[t3 s3]|] eqn:R3; [|discriminate]. cbn [pre] in R1. injection R1 as <- <-.
          destruct (half2_split _ _ _ _ _ _ _ _ R3 P) as (b & r2 & t4 & m4 & fs4 & y4 & -> & H). exists (Some w), b, r2. cbn [wait_events timed]. split; [rewrite <- !app_assoc; reflexivity|].
          cbn [o_sent set_sent] in H. change (zlen [mkIm (i_fn i) (i_attr i) x d]) with 1. rewrite H. eauto 10.
      - apply int_dead_run in R1 as (R1 & _). congruence.
      - destruct (half2_split _ _ _ _ _ _ _ _ R1 P) as (b & r2 & t4 & m4 & fs4 & y4 & -> & H). exists None, b, r2. cbn [wait_events timed app]. split; [reflexivity|].
        cbn [o_sent set_sent] in H. change (zlen (@nil imsg)) with 0. rewrite H. eauto 10. }
    destruct (sample_run plus i a b o fs lg _ _ _ _ V D) as (o1 & X & Y). subst y1.
    refine (Step (GSample i a b) r' t1 m1 fs1 o1 V _ _ X D).
    + rewrite E. cbn [iseg_events app]. rewrite <- app_assoc. reflexivity.
    + rewrite E in L. cbn [length] in L. rewrite !app_length in L. lia.
  - discriminate.
  - refine (Step (GOther g) es [] [] (g fs) o Logic.I eq_refl _ _ eq_refl); [cbn in L; lia|]. cbn. unfold int_other. cbn. rewrite app_nil_r. reflexivity.
Qed.

(** ** The other outputs *)
Lemma nth_firstn_lt {A} (l : list A) : forall n k, (k < n)%nat -> nth_error (firstn n l) k = nth_error l k.
Proof. induction l as [|x l IH]; intros [|n] [|k] K; try lia; try reflexivity. cbn. apply IH. lia. Qed.
Lemma first_word (g : cfn -> Z -> Z) (h : cfn -> Z) w n fs : 0 < w -> (forall x k, 0 <= k -> g x k = Z.shiftl (h x) (w * k)) -> (forall x, 0 <= h x < 2 ^ w) ->
  let v := or_each g 0 (firstn n fs) 0 in
  0 <= v < 2 ^ (w * Z.of_nat n) /\
  forall k j, (k < n)%nat -> 0 <= j < w -> Z.testbit v (w * Z.of_nat k + j) = match nth_error fs k with Some f => Z.testbit (h f) j | None => false end.
Proof.
  intros W G H v. destruct (or_each_word g h w (firstn n fs) W G H 0 0) as (B & _ & V); [lia|rewrite Z.mul_0_r; cbn; lia|].
  fold v in B, V. rewrite Z.add_0_l in B.
  assert (Ln : zlen (firstn n fs) <= Z.of_nat n) by (unfold zlen; rewrite firstn_length; lia).
  split.
  - split; [apply B|]. apply Z.lt_le_trans with (2 ^ (w * zlen (firstn n fs))); [apply B|]. apply Z.pow_le_mono_r; nia.
  - intros k j K J. destruct (nth_error fs k) as [f|] eqn:N.
    + rewrite <- (nth_firstn_lt fs n k K) in N. rewrite <- (V k f j N J). f_equal; lia.
    + apply nth_error_None in N. assert (zlen (firstn n fs) <= Z.of_nat k) by (unfold zlen; rewrite firstn_length; lia).
      destruct (Z.eq_dec v 0) as [-> |]; [apply Z.bits_0|]. apply Z.bits_above_log2; [lia|].
      assert (Z.log2 v < w * zlen (firstn n fs)) by (apply Z.log2_lt_pow2; lia). nia.
Qed.
Lemma msi_reg0 f : exists v, host_reads f InMs 0 = Some v /\
  Z.testbit v 16 = zbool (w_ms f ms_msi_enable) /\ slice v 17 3 = w_ms f ms_msi_multiple_message_capable mod 8 /\ slice v 20 3 = w_ms f ms_msi_multiple_message_enable mod 8 /\
  Z.testbit v 26 = zbool (w_ms f ms_msi_extended_message_data_enable).
Proof.
  unfold host_reads. destruct (msc_read (w_ms f) 0) as [v|] eqn:E; [|discriminate]. exists v. split; [reflexivity|]. apply msi_shows in E as (_ & V & _).
  split; [|split; [|split]].
  - apply flag_bit; [lia|]. apply (V (Fld 16 1 (Flag ms_msi_enable))); [cbn; tauto|]. intros. apply Z.bits_0.
  - apply (V (Fld 17 3 (Num ms_msi_multiple_message_capable))); [cbn; tauto|]. intros. apply Z.bits_0.
  - apply (V (Fld 20 3 (Num ms_msi_multiple_message_enable))); [cbn; tauto|]. intros. apply Z.bits_0.
  - apply flag_bit; [lia|]. apply (V (Fld 26 1 (Flag ms_msi_extended_message_data_enable))); [cbn; tauto|]. intros. apply Z.bits_0.
Qed.
Lemma msix_reg0 f : exists v, host_reads f InMx 0 = Some v /\ Z.testbit v 31 = zbool (w_mx f mx_msix_enable) /\ Z.testbit v 30 = zbool (w_mx f mx_msix_function_mask).
Proof.
  unfold host_reads. destruct (mxc_read (w_mx f) 0) as [v|] eqn:E; [|discriminate]. exists v. split; [reflexivity|]. apply msix_shows in E as (_ & V & _).
  split; (apply flag_bit; [lia|]).
  - apply (V (Fld 31 1 (Flag mx_msix_enable))); [cbn; tauto|]. intros. apply Z.bits_0.
  - apply (V (Fld 30 1 (Flag mx_msix_function_mask))); [cbn; tauto|]. intros. apply Z.bits_0.
Qed.
Lemma bit_word (p : cfn -> bool) n x b fs : (forall f, Z.testbit (reads0 (host_reads f x 0)) b = p f) ->
  shows_bits n x b fs (or_each (fun f k => if p f then Z.shiftl 1 k else 0) 0 (firstn n fs) 0).
Proof.
  intros P. destruct (first_word (fun f k => if p f then Z.shiftl 1 k else 0) (fun f => if p f then 1 else 0) 1 n fs) as (B & V); [lia| | |].
  - intros f k K. rewrite Z.mul_1_l. destruct (p f); [reflexivity|]. symmetry. apply Z.shiftl_0_l.
  - intros f. destruct (p f); cbn; lia.
  - rewrite Z.mul_1_l in B. split; [exact B|]. intros k K. specialize (V k 0 K ltac:(lia)). rewrite Z.mul_1_l, Z.add_0_r in V. rewrite V.
    destruct (nth_error fs k) as [f|]; [|reflexivity]. rewrite P. destruct (p f); reflexivity.
Qed.
Lemma en_shows n fs : shows_bits n InMs 16 fs (en_word n fs).
Proof. apply (bit_word (fun f => zbool (w_ms f ms_msi_enable))). intros f. destruct (msi_reg0 f) as (v & -> & V & _). exact V. Qed.
Lemma xen_shows n fs : shows_bits n InMx 31 fs (xen_word n fs).
Proof. apply (bit_word (fun f => zbool (w_mx f mx_msix_enable))). intros f. destruct (msix_reg0 f) as (v & -> & V & _). exact V. Qed.
Lemma xmask_shows n fs : shows_bits n InMx 30 fs (xmask_word n fs).
Proof. apply (bit_word (fun f => zbool (w_mx f mx_msix_function_mask))). intros f. destruct (msix_reg0 f) as (v & -> & _ & V). exact V. Qed.
Lemma slice_of_bits v lo w x : 0 <= lo -> 0 <= w -> 0 <= x < 2 ^ w -> (forall j, 0 <= j < w -> Z.testbit v (lo + j) = Z.testbit x j) -> slice v lo w = x.
Proof.
  intros L W X H. unfold slice. rewrite <- Z.shiftr_div_pow2, <- Z.land_ones by lia. apply Z.bits_inj'. intros j J. rewrite Z.land_spec, Z.shiftr_spec, Z.testbit_ones_nonneg by lia.
  destruct (Z.ltb_spec j w).
  - rewrite andb_true_r, <- H by lia. f_equal. lia.
  - rewrite andb_false_r. symmetry. destruct (Z.eq_dec x 0) as [-> |]; [apply Z.bits_0|]. apply Z.bits_above_log2; [lia|]. assert (Z.log2 x < w) by (apply Z.log2_lt_pow2; lia). lia.
Qed.
Lemma mm_shows n fs : shows_counts n fs (mm_word n fs).
Proof.
  unfold mm_word. destruct (first_word (fun f k => Z.shiftl (Z.land (w_ms f ms_msi_multiple_message_enable) 7) (k * 3)) (fun f => w_ms f ms_msi_multiple_message_enable mod 8) 3 n fs) as (B & V); [lia| | |].
  - intros f k K. change 7 with (Z.ones 3). rewrite Z.land_ones by lia. rewrite (Z.mul_comm k). reflexivity.
  - intros f. change (2 ^ 3) with 8. lia.
  - split; [exact B|]. intros k K. assert (S : forall f, slice (msi_word f 0) 20 3 = w_ms f ms_msi_multiple_message_enable mod 8).
    { intros f. unfold msi_word. destruct (msi_reg0 f) as (v & -> & _ & _ & E & _). exact E. }
    destruct (nth_error fs k) as [f|] eqn:N.
    + rewrite S. apply slice_of_bits; [lia|lia|change (2 ^ 3) with 8; lia|]. intros j J. rewrite (V k j K J), N. reflexivity.
    + apply slice_of_bits; [lia|lia|cbn; lia|]. intros j J. rewrite (V k j K J), N, Z.bits_0. reflexivity.
Qed.
Lemma outs_show (plus : bool) i fs fs1 x o : o_en o = en_word 2 fs -> outputs_show (if plus then 4%nat else 2%nat) i fs fs1 (pending i fs1) (set_xsent x (int_outs plus i fs1 (pending i fs1) o)).
Proof.
  intros E. constructor.
  - cbn. rewrite E. apply en_shows.
  - cbn. apply mm_shows.
  - intros M. cbn. destruct (Nat.eqb (i_sel i) 15); [reflexivity|]. destruct (nth_error fs1 (i_sel i)) as [f|] eqn:N; [|reflexivity].
    unfold msi_word, host_reads. rewrite ms_r4; [reflexivity|]. apply M. eapply nth_error_In. exact N.
  - cbn. apply xen_shows.
  - cbn. apply xmask_shows.
Qed.
Theorem sample_outputs (plus : bool) i a b s t m fs' y : 0 <= i_msi i < 2 ^ 32 -> i_ph s = IIdle ->
  sample i a b (i_fns s) (o_sent (i_out s), o_xsent (i_out s)) = Some (t, m, fs', y) ->
  exists s', int_run plus (iseg_events (GSample i a b)) s = Some (t, s') /\ i_ph s' = IIdle /\ i_fns s' = fs' /\ i_log s' = i_log s ++ m /\
    outputs_show (if plus then 4%nat else 2%nat) i (i_fns s) (after_wait a (i_fns s)) (pending i (after_wait a (i_fns s))) (i_out s').
Proof.
  intros V P. destruct s as [ph o fs lg]. cbn [i_ph i_out i_fns i_log] in *. subst ph. rewrite sample_halves. cbn [iseg_events int_run]. rewrite edge_eq by exact V. cbv zeta.
  destruct (msi_of i fs) as [[[x d]|e]|]; cbn [wanted]; [|discriminate|].
  - destruct a as [w|]; cbn [timed]; [|discriminate]. cbn [wait_events]. destruct (half2 _ _ _ _) as [[[[t2 m2] fs3] y2]|] eqn:H; [|discriminate]. intros E. injection E as <- <- <- <-.
    rewrite <- app_assoc, int_app, int_keep by discriminate. cbn [app int_run]. unfold int_sent. cbn [i_ph i_out i_fns i_log].
    destruct (half2_run plus i b (set_sent 1 (set_sent 0 (set_en (en_word 2 fs) o))) (wapply w fs) (lg ++ [mkIm (i_fn i) (i_attr i) x d]) _ _ _ _ H) as (o' & R & Y & z & O).
    rewrite R. cbn [pre]. eexists. split; [reflexivity|]. cbn [i_ph i_out i_fns i_log after_wait]. split; [reflexivity|]. split; [reflexivity|]. split; [rewrite <- app_assoc; reflexivity|].
    rewrite O. apply outs_show. reflexivity.
  - destruct a as [w|]; cbn [timed]; [discriminate|]. cbn [wait_events app]. destruct (half2 _ _ _ _) as [[[[t2 m2] fs3] y2]|] eqn:H; [|discriminate]. intros E. injection E as <- <- <- <-.
    destruct (half2_run plus i b (set_sent 0 (set_en (en_word 2 fs) o)) fs lg _ _ _ _ H) as (o' & R & Y & z & O). rewrite R.
    eexists. split; [reflexivity|]. cbn [i_ph i_out i_fns i_log after_wait app]. split; [reflexivity|]. split; [reflexivity|]. split; [reflexivity|].
    rewrite O. apply outs_show. reflexivity.
Qed.
(** The pending bits. *)
Lemma change_nth_at g l : forall n k, nth_error (change_nth n g l) k = if Nat.eqb k n then option_map g (nth_error l k) else nth_error l k.
Proof. induction l as [|f l IH]; intros [|n] [|k]; try reflexivity; cbn; [destruct (Nat.eqb k n); reflexivity|apply IH]. Qed.
Theorem pending_read i fs k f : i_pen i = true -> nth_error fs k = Some f -> exists f', nth_error (pending i fs) k = Some f' /\
  (k <> i_pfn i -> f' = f) /\
  (k = i_pfn i -> (forall x r, x <> InMs -> host_reads f' x r = host_reads f x r) /\
    forall r, host_reads f' InMs r = if (r =? (if Z.testbit (msi_word f 0) 23 then 5 else 4)) && Z.testbit (msi_word f 0) 24 then Some (Z.land (i_pend i) 0xffffffff) else host_reads f InMs r).
Proof.
  intros P N. unfold pending. rewrite P, change_nth_at, N. destruct (Nat.eqb_spec k (i_pfn i)) as [E|E]; cbn [option_map].
  2:{ exists f. split; [reflexivity|]. split; [auto|]. intros X. contradiction. }
  eexists. split; [reflexivity|]. split; [contradiction|]. intros _. split.
  - intros x r X. destruct x; try reflexivity. contradiction.
  - assert (B : Z.testbit (msi_word f 0) 23 = zbool (w_ms f ms_msi_64bit_address_capable) /\ Z.testbit (msi_word f 0) 24 = zbool (w_ms f ms_msi_per_vector_mask_capable)).
    { unfold msi_word, host_reads. destruct (msc_read (w_ms f) 0) as [v|] eqn:R; [|discriminate]. apply msi_shows in R as (_ & V & _). cbn [reads0].
      split; (apply flag_bit; [lia|]).
      - apply (V (Fld 23 1 (Flag ms_msi_64bit_address_capable))); [cbn; tauto|]. intros. apply Z.bits_0.
      - apply (V (Fld 24 1 (Flag ms_msi_per_vector_mask_capable))); [cbn; tauto|]. intros. apply Z.bits_0. }
    destruct B as (-> & ->). intros r. unfold host_reads, msc_read. cbn [w_ms]. set (s := w_ms f).
    change (aset ms_msi_pending_bits (i_pend i) s ms_msi_64bit_address_capable) with (s ms_msi_64bit_address_capable).
    change (aset ms_msi_pending_bits (i_pend i) s ms_msi_per_vector_mask_capable) with (s ms_msi_per_vector_mask_capable).
    change (aset ms_msi_pending_bits (i_pend i) s ms_msi_pending_bits) with (i_pend i).
    destruct (Z.eqb_spec r 0) as [-> |]; [destruct (zbool (s ms_msi_64bit_address_capable)); reflexivity|].
    destruct (Z.eqb_spec r 1) as [-> |]; [destruct (zbool (s ms_msi_64bit_address_capable)); reflexivity|].
    destruct (zbool (s ms_msi_64bit_address_capable)), (zbool (s ms_msi_per_vector_mask_capable)); rewrite ?andb_true_r, ?andb_false_r;
      (destruct (Z.eqb_spec r 2) as [-> |]; [reflexivity|]); try (destruct (Z.eqb_spec r 3) as [-> |]; [reflexivity|]); try (destruct (Z.eqb_spec r 4) as [-> |]; [reflexivity|]);
      destruct (r =? 5); try reflexivity.
Qed.

(** ** The message *)
Theorem msi_issued f n : msi_ok (w_ms f) -> counts_ok (w_ms f) ->
  match issue_msi (w_ms f) n with Ok (a, d) => msi_allowed f n /\ msi_message f n a d | Err _ => ~ msi_allowed f n end.
Proof.
  intros M [C1 C2]. unfold msi_allowed, msi_message, msi_word. pose proof (ms_r1 (w_ms f) M) as R1. pose proof (ms_r2 (w_ms f) M) as R2. pose proof (ms_r3 (w_ms f) M) as R3.
  change (msc_read (w_ms f)) with (host_reads f InMs) in R1, R2, R3. rewrite R1, R2, R3. cbn [reads0].
  destruct (msi_reg0 f) as (v & -> & V1 & V2 & V3 & V4). cbn [reads0]. rewrite V1, V2, V3, V4. rewrite !Z.mod_small by lia.
  destruct M as [_ _ [Ba _] Bd _]. set (s := w_ms f) in *. unfold issue_msi. destruct (zbool (s ms_msi_enable)); cbn [negb]; [|intros (? & _); discriminate].
  set (en := s ms_msi_multiple_message_enable) in *. set (ca := s ms_msi_multiple_message_capable) in *.
  assert (Emin : forall n, n < 2 ^ Z.min en ca <-> n < 2 ^ en /\ n < 2 ^ ca).
  { intros k. destruct (Z.min_spec en ca) as [(A & ->)|(A & ->)].
    - pose proof (Z.pow_lt_mono_r 2 en ca ltac:(lia) ltac:(lia) A). lia.
    - pose proof (Z.pow_le_mono_r 2 ca en ltac:(lia) A). lia. }
  specialize (Emin n).
  destruct ((n <? 0) || (2 ^ Z.min en ca <=? n)) eqn:O; [intros (_ & (A & B) & C); lia|].
  cbv zeta. set (d0 := if zbool (s ms_msi_extended_message_data_capable) && zbool (s ms_msi_extended_message_data_enable) then s ms_msi_message_data else Z.land (s ms_msi_message_data) 0xffff).
  assert (D0 : d0 = (if zbool (s ms_msi_extended_message_data_enable) then Z.land (s ms_msi_message_data) 0xffffffff else Z.land (s ms_msi_message_data) 0xffffffff mod 2 ^ 16) /\ 0 <= d0 < 2 ^ 32).
  { unfold d0. change 0xffff with (Z.ones 16). change 0xffffffff with (Z.ones 32). rewrite !Z.land_ones by lia. unfold zbool.
    destruct (s ms_msi_extended_message_data_capable =? 0), (s ms_msi_extended_message_data_enable =? 0); cbn [negb andb]; split; lia. }
  destruct D0 as (D0 & B0).
  assert (L : Z.lor (Z.land d0 (Z.lnot (2 ^ en - 1))) n = d0 / 2 ^ en * 2 ^ en + n).
  { replace (2 ^ en - 1) with (Z.ones en) by (rewrite Z.ones_equiv; lia). rewrite <- Z.ldiff_land, Z.ldiff_ones_r, Z.shiftl_mul_pow2, Z.shiftr_div_pow2 by lia.
    symmetry. rewrite <- Z.lxor_lor, Z.add_nocarry_lxor; try reflexivity; apply Z.bits_inj'; intros k K; rewrite Z.land_spec, Z.bits_0;
      (destruct (Z.ltb_spec k en); [rewrite Z.mul_pow2_bits_low by lia; reflexivity|]);
      (assert (Z.testbit n k = false) as ->; [|apply andb_false_r]);
      (destruct (Z.eq_dec n 0) as [-> |]; [apply Z.bits_0|]); (apply Z.bits_above_log2; [lia|]); (assert (Z.log2 n < en) by (apply Z.log2_lt_pow2; lia)); lia. }
  rewrite L. assert (P : 0 < 2 ^ en) by (apply Z.pow_pos_nonneg; lia).
  assert (B : 0 <= d0 / 2 ^ en * 2 ^ en + n < 2 ^ 32).
  { split; [pose proof (Z.div_pos d0 (2 ^ en)); nia|].
    replace (2 ^ 32) with (2 ^ (32 - en) * 2 ^ en) in B0 |- * by (rewrite <- Z.pow_add_r by lia; f_equal; lia).
    assert (d0 / 2 ^ en < 2 ^ (32 - en)) by (apply Z.div_lt_upper_bound; lia). nia. }
  unfold pack_L. replace ((0 <=? _) && _) with true by lia. cbn [bind].
  split; [split; [reflexivity|split; lia]|]. split.
  - change 0xffffffff with (Z.ones 32). rewrite !Z.land_ones, Z.shiftr_div_pow2 by lia. lia.
  - split; [apply le_bytes_length|]. split; [apply le_bytes_ok|]. exists d0. split; [exact D0|]. rewrite from_le_le_bytes; [reflexivity|]. exact B.
Qed.

(** ** One acknowledgement for each message *)
Lemma sum_app a b : sum (a ++ b) = sum a + sum b.
Proof. induction a as [|x a IH]; [reflexivity|]. cbn [app sum fold_right]. fold (sum (a ++ b)) (sum a). lia. Qed.
Lemma sum_rep n : sum (repeat 0 n) = 0.
Proof. induction n as [|n IH]; [reflexivity|]. exact IH. Qed.
Lemma map_rep {A B} (f : A -> B) x n : map f (repeat x n) = repeat (f x) n.
Proof. induction n; [reflexivity|]. cbn. f_equal. assumption. Qed.
Lemma zlen_app2 {A} (a b : list A) : zlen (a ++ b) = zlen a + zlen b.
Proof. unfold zlen. rewrite app_length. lia. Qed.
Definition seg_only (x : bool) (g : iseg) : Prop := match g with GSample i _ _ => if x then i_msi i = 0 else i_msix i = false | _ => True end.
Lemma segs_only x l : Forall (kind_only x) (flat_map iseg_events l) -> Forall (seg_only x) l.
Proof.
  induction l as [|g l IH]; intros F; [constructor|]. cbn [flat_map] in F. apply Forall_app in F as (F1 & F2). constructor; [|apply IH; exact F2].
  destruct g as [g|i a b]; [exact Logic.I|]. exact (Forall_inv F1).
Qed.
Lemma once_segs x l : forall fs sx t m fs' y, Forall (seg_only x) l -> isegs_do l fs sx = Some (t, m, fs', y) ->
  sum (map (ack_of x) t) + ack_of x y = ack_of x sx + zlen m.
Proof.
  induction l as [|g l IH]; intros fs sx t m fs' y K E.
  - injection E as <- <- <- <-. cbn. lia.
  - cbn [isegs_do] in E. destruct (match g with GOther _ => _ | GSample _ _ _ => _ end) as [[[[t1 m1] fs1] y1]|] eqn:E1; [|discriminate].
    destruct (isegs_do l fs1 y1) as [[[[t2 m2] fs2] y2]|] eqn:E2; [|discriminate]. injection E as <- <- <- <-. specialize (IH _ _ _ _ _ _ (Forall_inv_tail K) E2).
    rewrite map_app, sum_app, zlen_app2. assert (sum (map (ack_of x) t1) + ack_of x y1 = ack_of x sx + zlen m1); [|lia]. apply Forall_inv in K.
    destruct g as [g|i a b]; [injection E1 as <- <- <- <-; cbn; lia|]. cbn [seg_only] in K. rewrite sample_halves in E1. unfold half2 in E1.
    destruct x.
    + assert (msi_of i fs = None) as Z0 by (unfold msi_of; rewrite K; reflexivity). rewrite Z0 in E1. cbn [wanted] in E1. destruct a; cbn [timed] in E1; [discriminate|].
      destruct (wanted (msix_of i (pending i fs)) i) as [mx|]; [|discriminate]. destruct (timed mx b (pending i fs)) as [[[l2 fs3] n2]|]; [|discriminate]. injection E1 as <- <- <- <-.
      cbn [map sum fold_right app repeat ack_of]. fold (sum (map snd (repeat (zlen (@nil imsg), 0) n2))). rewrite map_rep. cbn [snd]. rewrite sum_rep. lia.
    + assert (forall fs, msix_of i fs = None) as Z0 by (intros; unfold msix_of; rewrite K; destruct (nth_error _ _); reflexivity).
      destruct (wanted (msi_of i fs) i) as [m|]; [|discriminate]. destruct (timed m a fs) as [[[l1 fs3] n1]|]; [|discriminate]. rewrite Z0 in E1. cbn [wanted] in E1.
      destruct b; cbn [timed] in E1; [discriminate|]. injection E1 as <- <- <- <-. rewrite !app_nil_r. cbn [map sum fold_right ack_of repeat].
      fold (sum (map fst (repeat (0, snd sx) n1))). rewrite map_rep. cbn [fst]. rewrite sum_rep. lia.
Qed.
Theorem once plus x es s t s' : wide es -> Forall (kind_only x) es -> i_ph s = IIdle -> int_run plus es s = Some (t, s') -> i_ph s' = IIdle ->
  sum (map (ack_of x) t) + ack_of x (o_sent (i_out s'), o_xsent (i_out s')) = ack_of x (o_sent (i_out s), o_xsent (i_out s)) + (zlen (i_log s') - zlen (i_log s)).
Proof.
  intros W K P R P'. destruct s as [ph o fs lg]. cbn [i_ph] in P. subst ph. cbn [i_out i_log].
  destruct (int_all plus (length es) es o fs lg t s' ltac:(lia) W R P') as (l & m & fs' & _ & E & D & _ & G).
  rewrite E in K. rewrite (once_segs x l _ _ _ _ _ _ (segs_only x l K) D), G, zlen_app2. lia.
Qed.
Lemma counts_write s reg data be : counts_ok s -> counts_ok (msc_write reg data be s).
Proof.
  intros [A B]. assert (L : forall x, 0 <= Z.land x 7 < 8) by (intros x; change 7 with (Z.ones 3); rewrite Z.land_ones by lia; change (2 ^ 3) with 8; lia).
  unfold msc_write, when. repeat match goal with |- counts_ok (if ?b then _ else _) => destruct b end; (constructor; [|]); look_ms;
    try (destruct (zbool _)); try (destruct (bit be 2)); auto.
Qed.
