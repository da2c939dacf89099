From Coq Require Import Permutation.
From Verif Require Import Base BaseProofs ModelUtils ModelTlp ModelAttrs ModelCaps ModelCapList ModelConfig ModelFunction ModelRoute
  SpecUtils SpecBar SpecRoute SpecSwitch ProofsUtils ProofsTlp ProofsMem ProofsCaps ProofsBar ProofsRoute ProofsRouteBr ProofsSwitch ProofsSwitchInv ProofsSwitchRun.

Section Target.
Variables (root : bool) (B : list fnc).
Let n := length B.
Definition from (s : sw) (i : nat) (p : pkt) : Prop :=
  no_write (snd p) /\
  ((exists t, In (EIn i (fst p, t)) (sw_log s) /\ same_tlp t (snd p)) \/ exists k q c, In (EFree k q (Some (fst p, c))) (sw_log s)).
Definition out_ok (s : sw) (e : ev) : Prop :=
  match e with
  | EOut j p => (exists i t, j <> i /\ In (EIn i (fst p, t)) (sw_log s) /\ belongs root B j t) \/ exists k q c, In (EFree k q (Some (fst p, c))) (sw_log s)
  | _ => True
  end.
Record tinv (s : sw) : Prop := mkT {
  t_root : sw_root s = root;
  t_br : forall i f, nth_error (sw_br s) i = Some f -> exists f0, nth_error B i = Some f0 /\ forall r, behind f r = behind f0 r;
  t_ing : forall i p, In p (sw_ing s i) -> from s i p;
  t_q : forall i j p, In p (sw_q s i j) -> from s i p /\ i <> j;
  t_out : Forall (out_ok s) (sw_log s)
}.
Lemma from_more s s' i p : (forall e, In e (sw_log s) -> In e (sw_log s')) -> from s i p -> from s' i p.
Proof. intros H (N & [(t & I & S)|(k & q & c & I)]); (split; [exact N|]); [left; exists t; split; [apply H; exact I|exact S]|right; exists k, q, c; apply H; exact I]. Qed.
Lemma out_more s s' e : (forall e, In e (sw_log s) -> In e (sw_log s')) -> out_ok s e -> out_ok s' e.
Proof.
  intros H. destruct e; cbn [out_ok]; auto. intros [(i0 & t & A & I & D)|(k & q & c & I)]; [left; exists i0, t; split; [exact A|]; split; [apply H; exact I|exact D]|right; exists k, q, c; apply H; exact I].
Qed.
Lemma nth_set {A} i (v : A) l j x : nth_error (set_nth i v l) j = Some x -> (j = i /\ x = v /\ (i < length l)%nat) \/ (j <> i /\ nth_error l j = Some x).
Proof.
  revert i j. induction l as [|y l IH]; intros i j; unfold set_nth.
  - rewrite firstn_nil, skipn_nil. destruct j; discriminate.
  - destruct i as [|i].
    + cbn [firstn skipn app]. destruct j as [|j]; cbn [nth_error length]; intros H; [left; split; [reflexivity|split; [congruence|lia]]|right; split; [discriminate|exact H]].
    + cbn [firstn skipn app]. destruct j as [|j]; cbn [nth_error length]; intros H; [right; split; [discriminate|exact H]|].
      destruct (IH i j H) as [(-> & -> & L)|(N & E)]; [left; split; [reflexivity|split; [reflexivity|lia]]|right; split; [congruence|exact E]].
Qed.
Lemma t_set_br i f f' s : nth_error (sw_br s) i = Some f -> (forall r, behind f' r = behind f r) -> tinv s -> tinv (sw_set_br i f' s).
Proof.
  intros E W [R1 R2 R3 R4 R5]. constructor; try assumption. intros j g H. cbn [sw_set_br sw_br] in H. apply nth_set in H. destruct H as [(-> & -> & _)|(_ & H)]; [|exact (R2 j g H)].
  destruct (R2 i f E) as (f0 & E0 & Q). exists f0. split; [exact E0|]. intros r. rewrite W. apply Q.
Qed.
Lemma t_note e s : out_ok (sw_note e s) e -> tinv s -> tinv (sw_note e s).
Proof.
  intros O [R1 R2 R3 R4 R5]. assert (M : forall x, In x (sw_log s) -> In x (sw_log (sw_note e s))) by (intros x H; right; exact H). constructor; try assumption.
  - intros i p H. apply (from_more s); [exact M|]. apply R3. exact H.
  - intros i j p H. destruct (R4 i j p H) as [A N]. split; [exact (from_more s _ _ _ M A)|exact N].
  - constructor; [exact O|]. eapply Forall_impl; [|exact R5]. intros x. apply out_more. exact M.
Qed.
Lemma t_fresh s : tinv s -> tinv (sw_fresh s).
Proof. intros [R1 R2 R3 R4 R5]. constructor; assumption. Qed.
Lemma t_put i p s : from s i p -> tinv s -> tinv (sw_put_ing i p s).
Proof.
  intros Fp [R1 R2 R3 R4 R5]. constructor; try assumption. intros j q H. cbn [sw_put_ing sw_ing] in H. destruct (Nat.eq_dec j i) as [->|Nj].
  - rewrite upd_same in H. apply in_app_iff in H. destruct H as [H|[<-|[]]]; [exact (R3 i q H)|exact Fp].
  - rewrite upd_other in H by exact Nj. exact (R3 j q H).
Qed.
Lemma t_pop_ing i p r s : sw_ing s i = p :: r -> tinv s -> tinv (sw_set_ing i r s) /\ from s i p.
Proof.
  intros E [R1 R2 R3 R4 R5]. split; [|apply R3; rewrite E; left; reflexivity]. constructor; try assumption. intros j q H. cbn [sw_set_ing sw_ing] in H. destruct (Nat.eq_dec j i) as [->|Nj].
  - rewrite upd_same in H. apply (R3 i). rewrite E. right. exact H.
  - rewrite upd_other in H by exact Nj. exact (R3 j q H).
Qed.
Lemma t_set_q i j l s : (forall p, In p l -> In p (sw_q s i j) \/ from s i p /\ i <> j) -> tinv s -> tinv (sw_set_q i j l s).
Proof.
  intros H [R1 R2 R3 R4 R5]. constructor; try assumption. intros a b q I. destruct (Nat.eq_dec a i) as [->|Na]; [destruct (Nat.eq_dec b j) as [->|Nb]|].
  - rewrite set_q_same in I. destruct (H q I) as [I'|I']; [exact (R4 i j q I')|exact I'].
  - rewrite set_q_other in I by tauto. exact (R4 i b q I).
  - rewrite set_q_other in I by tauto. exact (R4 a b q I).
Qed.
Lemma no_write_cpl c t : answers c t -> no_write c.
Proof. intros (_ & [E|E] & _); unfold no_write; rewrite E; split; discriminate. Qed.
Lemma no_write_same t t' : same_tlp t t' -> no_write t -> no_write t'.
Proof. intros [->|(_ & [(_ & E)|(E & _)])] N; [exact N|unfold no_write; rewrite E; split; discriminate|destruct N; contradiction]. Qed.
Lemma behind_conv f t t' : same_tlp t t' -> behind f (target t') = true -> t' = t.
Proof. intros [->|(_ & [(_ & E)|(_ & E)])] H; [reflexivity| |]; unfold target in H; rewrite E in H; discriminate H. Qed.
Lemma up_conv t t' : same_tlp t t' -> local_cfg (target t') = false -> t' = t.
Proof. intros [->|(_ & [(_ & E)|(_ & E)])] H; [reflexivity| |]; unfold target in H; rewrite E in H; discriminate H. Qed.
(** From the switch to the link. *)
Lemma got_out j p f s s' i : nth_error (sw_br s) j = Some f -> no_write (snd p) -> i <> j \/ (exists k q c, In (EFree k q (Some (fst p, c))) (sw_log s)) -> from s i p ->
  tinv s -> got j (sw_egress j) p f s s' -> tinv s'.
Proof.
  intros Ef NW D Fp V G. destruct (t_br s V j f Ef) as (f0 & E0 & Q).
  destruct G as [f' t' [_ K] S _ GD GU|f' [_ K] NP|f' c [_ K] NP An|f' [_ K] C]; specialize (K (proj1 NW)); pose proof (t_set_br j f f' s Ef K V) as V1.
  - assert (O : out_ok (sw_note (EOut j (fst p, t')) (sw_set_br j f' s)) (EOut j (fst p, t'))).
    { cbn [out_ok fst]. destruct Fp as [_ [(t & I & St)|(k & q & c & I)]]; [|right; exists k, q, c; right; exact I].
      destruct D as [D|(k & q & c & I')]; [|right; exists k, q, c; right; exact I']. left. exists i, t. split; [congruence|]. split; [right; exact I|].
      unfold belongs. rewrite E0. unfold sw_egress, is_up in *. destruct (Nat.eqb j 0).
      - destruct (GU eq_refl) as (-> & L & U). pose proof (up_conv _ _ St L) as X. rewrite X in L, U. split; [exact L|]. rewrite <- Q. destruct U as [U|U]; [right; exact U|left].
        rewrite (t_root s V) in U. apply andb_true_iff in U. apply U.
      - pose proof (GD eq_refl) as U. rewrite (behind_conv _ _ _ St U) in U. rewrite <- Q. exact U. }
    unfold emit, sw_egress. destruct (is_up j); apply t_note; assumption.
  - apply t_note; [exact I|exact V1].
  - unfold emit_new. set (s1 := sw_note (EFree j p (Some (sw_next s, c))) (sw_set_br j f' s)). assert (V2 : tinv s1) by (apply t_note; [exact I|exact V1]).
    change (sw_next s1) with (sw_next s). assert (Fc : from (sw_fresh s1) j (sw_next s, c)) by (split; [exact (no_write_cpl _ _ An)|]; right; exists j, p, c; left; reflexivity).
    unfold emit, sw_egress. destruct (is_up j); cbn [opp]; (apply t_put; [exact Fc|apply t_fresh; exact V2]).
  - apply t_note; [exact I|exact V1].
Qed.
(** From the link to the switch. *)
Lemma got_in i p f s s' : nth_error (sw_br s) i = Some f -> from s i p ->
  tinv s -> got i (if is_up i then Down else Up) p f s s' -> tinv s'.
Proof.
  intros Ef Fp V G. pose proof (proj1 Fp) as NW.
  destruct G as [f' t' [_ K] S _ GD GU|f' [_ K] NP|f' c [_ K] NP An|f' [_ K] C]; specialize (K (proj1 NW)); pose proof (t_set_br i f f' s Ef K V) as V1.
  - assert (Fp' : from (sw_set_br i f' s) i (fst p, t')).
    { split; [exact (no_write_same _ _ S NW)|]. destruct Fp as [_ [(t & I & St)|(k & q & c & I)]]; [left; exists t; split; [exact I|exact (same_trans _ _ _ St S)]|right; exists k, q, c; exact I]. }
    unfold emit. destruct (is_up i); (apply t_put; assumption).
  - apply t_note; [exact I|exact V1].
  - unfold emit_new. set (s1 := sw_note (EFree i p (Some (sw_next s, c))) (sw_set_br i f' s)). assert (V2 : tinv s1) by (apply t_note; [exact I|exact V1]).
    change (sw_next s1) with (sw_next s).
    unfold emit. destruct (is_up i); cbn [opp]; (apply t_note; [right; exists i, p, c; right; left; reflexivity|apply t_fresh; exact V2]).
  - apply t_note; [exact I|exact V1].
Qed.
Lemma step_tinv o s s' : sop_ok n o -> quiet o -> inv n [] s -> tinv s -> sw_step o s = Ok s' -> tinv s'.
Proof.
  destruct o as [i t|i|i j]; cbn [sop_ok quiet sw_step].
  - intros [I G] Q V T H. pose proof (inv_enter n [] s i t G V) as V1. set (s1 := sw_fresh (sw_note (EIn i (sw_next s, t)) s)) in *.
    destruct (recv_inv n i (if is_up i then Down else Up) _ _ I V1) as [(s2 & f & R & Ef & Gt & _)|(e & x & R & _)]; rewrite H in R; [|discriminate R].
    apply Ok_inj in R. subst s2. apply (got_in i (sw_next s, t) f s1); [exact Ef| |apply t_fresh; apply t_note; [exact Logic.I|exact T]|exact Gt].
    split; [exact Q|]. left. exists t. split; [left; reflexivity|left; reflexivity].
  - intros I _ V T. destruct (sw_ing s i) as [|p r] eqn:E; [unfold sw_route; rewrite E; intros H; apply Ok_inj in H; subst; exact T|].
    rewrite (route_eq n i p r s _ I V E). unfold route_step. pose proof (pop_ing n i p r s I V E) as V1. destruct (t_pop_ing i p r s E T) as [T1 Fp].
    destruct (find _ _) as [j|] eqn:Fj.
    + intros H. apply Ok_inj in H. subst s'. apply find_some in Fj. destruct Fj as [Fj _]. apply others_ne in Fj. apply (t_set_q i j _ (sw_set_ing i r s)); [|exact T1].
      intros q Hq. apply in_app_iff in Hq. destruct Hq as [Hq|[<-|[]]]; [left; exact Hq|right; split; [exact Fp|intros ->; apply (proj1 Fj); reflexivity]].
    + destruct (nth_plain s i (v_plain _ _ _ V)) as (f & Ef & _); [rewrite (v_len _ _ _ V); exact I|]. rewrite Ef. destruct (non_posted _) eqn:NP.
      * pose proof (inv_answer n p [] _ i _ NP (good_ur (snd p) (f_id f)) V1) as V2. cbv zeta. intros H.
        pose proof (no_write_cpl _ _ (good_ur (snd p) (f_id f))) as NW. change (sw_next (sw_set_ing i r s)) with (sw_next s) in V2.
        set (c := create_ur_completion (snd p) (f_id f)) in *. set (s2 := sw_fresh _) in *.
        assert (T2 : tinv s2) by (apply t_fresh; apply t_note; [exact Logic.I|exact T1]).
        assert (X : exists k q c0, In (EFree k q (Some (sw_next s, c0))) (sw_log s2)) by (exists i, p, c; left; reflexivity). clearbody s2 c.
        destruct (recv_inv n i (sw_egress i) _ _ I V2) as [(s3 & g & R & Eg & Gt & _)|(e & x & R & _)]; rewrite R in H; [|discriminate H].
        apply Ok_inj in H. subst s3. apply (got_out i (sw_next s, c) g s2 s' i Eg NW); [right; exact X|split; [exact NW|right; exact X]|exact T2|exact Gt].
      * intros H. apply Ok_inj in H. subst s'. apply t_note; [exact Logic.I|exact T1].
  - intros [I J] _ V T. unfold sw_transfer. destruct (sw_q s i j) as [|p r] eqn:E; [intros H; apply Ok_inj in H; subst; exact T|]. intros H.
    destruct (recv_inv n j (sw_egress j) _ _ J (pop_q n i j p r s I J V E)) as [(s2 & f & R & Ef & Gt & _)|(e & x & R & _)]; rewrite H in R; [|discriminate R].
    apply Ok_inj in R. subst s2. destruct (t_q s T i j p ltac:(rewrite E; left; reflexivity)) as [Fp Nij].
    apply (got_out j p f (sw_set_q i j r s) s' i); [exact Ef|apply Fp|left; exact Nij|exact Fp| |exact Gt].
    apply t_set_q; [|exact T]. intros q Hq. left. rewrite E. right. exact Hq.
Qed.
Lemma t0 : tinv (sw0 root B).
Proof. constructor; cbn [sw0 sw_root sw_br sw_ing sw_q sw_log]; [reflexivity| |intros i p []|intros i j p []|constructor]. intros i f H. exists f. split; [exact H|reflexivity]. Qed.
Lemma run_tinv ops : forall s s', Forall (sop_ok n) ops -> Forall quiet ops -> inv n [] s -> tinv s -> sw_run ops s = Ok s' -> inv n [] s' /\ tinv s'.
Proof.
  induction ops as [|o ops IH]; intros s s' F Q V T H; [apply Ok_inj in H; subst; split; assumption|]. apply Forall_cons_iff in F, Q. destruct F as [Fo F], Q as [Qo Q].
  cbn [sw_run] in H. destruct (step_inv n o s Fo V) as [(s1 & E & V1)|(e & t & E & _)]; rewrite E in H; cbn [bind] in H; [|discriminate H].
  exact (IH s1 s' F Q V1 (step_tinv o s s1 Fo Qo V T E) H).
Qed.
Lemma nodup_flat {A C} (g : A -> list C) l a b x : NoDup (flat_map g l) -> In a l -> In b l -> In x (g a) -> In x (g b) -> a = b.
Proof.
  induction l as [|y l IH]; intros N Ia Ib Xa Xb; [destruct Ia|]. cbn [flat_map] in N.
  assert (D : forall z, In z l -> In x (g z) -> In x (g y) -> False).
  { intros z Iz Xz Xy. clear IH Ia Ib. induction (g y) as [|w u IH]; [destruct Xy|]. cbn [app] in N. apply NoDup_cons_iff in N. destruct N as [N0 N]. destruct Xy as [->|Xy]; [|exact (IH N Xy)].
    apply N0. apply in_app_iff. right. apply in_flat_map. exists z. split; assumption. }
  destruct Ia as [<-|Ia], Ib as [<-|Ib]; [reflexivity|exfalso; exact (D b Ib Xb Xa)|exfalso; exact (D a Ia Xa Xb)|].
  apply IH; try assumption. clear - N. induction (g y) as [|w u IH]; [exact N|]. apply NoDup_cons_iff in N. apply IH. apply N.
Qed.
Lemma target_ok ops s i j k t t' : Forall plain B -> Forall (sop_ok n) ops -> Forall quiet ops -> sw_run ops (sw0 root B) = Ok s ->
  In (EIn i (k, t)) (sw_log s) -> In (EOut j (k, t')) (sw_log s) -> j <> i /\ belongs root B j t.
Proof.
  intros P F Q R Ii Io. destruct (run_tinv ops _ s F Q (inv0 n root B eq_refl P) t0 R) as [V T].
  pose proof (v_made _ _ _ V) as M. assert (N : NoDup (flat_map (fun e => map fst (made e)) (sw_log s))).
  { replace (flat_map (fun e => map fst (made e)) (sw_log s)) with (map fst (flat_map made (sw_log s))).
    - apply (Permutation_NoDup (l := map fst (flat_map made (rev (sw_log s))))); [apply Permutation_map; apply Permutation_flat_map; symmetry; apply Permutation_rev|].
      rewrite M. apply seq_NoDup.
    - clear. induction (sw_log s) as [|e l IH]; [reflexivity|]. cbn [flat_map]. rewrite map_app. apply (f_equal (app _)). exact IH. }
  pose proof (t_out s T) as O. rewrite Forall_forall in O. specialize (O _ Io). cbn [out_ok fst] in O. destruct O as [(i' & t1 & D & I' & Bl)|(a & q & c & I')].
  - pose proof (nodup_flat _ _ _ _ k N Ii I' ltac:(left; reflexivity) ltac:(left; reflexivity)) as E. injection E as -> ->. split; assumption.
  - pose proof (nodup_flat _ _ _ _ k N Ii I' ltac:(left; reflexivity) ltac:(left; reflexivity)) as E. discriminate E.
Qed.
End Target.
