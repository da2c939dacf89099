From Coq Require Import Permutation.
From Verif Require Import Base BaseProofs ModelUtils ModelTlp ModelAttrs ModelCaps ModelCapList ModelConfig ModelFunction ModelRoute
  SpecUtils SpecBar SpecRoute SpecSwitch ProofsUtils ProofsTlp ProofsMem ProofsCaps ProofsBar ProofsRoute ProofsRouteBr ProofsSwitch ProofsSwitchInv.

(** ** Routing decisions *)
Lemma claims_spec s j f t : nth_error (sw_br s) j = Some f -> plain f -> good t -> claims s j t = Ok (wants f j (target t)).
Proof.
  intros F P (C & A & ty & T & N). unfold claims, wants, target. rewrite F, (type_of_ok _ _ T), (match_tlp_spec f 2 no_bars t ty T N (plain_bars f t ty P A)). cbn [bind].
  destruct (own f no_bars _); [reflexivity|]. rewrite (match_secondary_spec f t ty T N). cbn [bind orb]. unfold is_up. destruct (Nat.eqb j 0); reflexivity.
Qed.
Lemma nth_plain s j : Forall plain (sw_br s) -> (j < length (sw_br s))%nat -> exists f, nth_error (sw_br s) j = Some f /\ plain f.
Proof.
  intros F L. destruct (nth_error (sw_br s) j) as [f|] eqn:E; [|apply nth_error_None in E; lia]. exists f. split; [reflexivity|].
  rewrite Forall_forall in F. apply F. eapply nth_error_In. exact E.
Qed.
Lemma first_port_spec s t l : Forall plain (sw_br s) -> good t -> Forall (fun j => (j < length (sw_br s))%nat) l ->
  first_port s l t = Ok (find (port_wants s (target t)) l).
Proof.
  intros P G. induction 1 as [|j l J F IH]; [reflexivity|]. cbn [first_port find]. destruct (nth_plain s j P J) as (f & E & Pf).
  rewrite (claims_spec s j f t E Pf G). cbn [bind]. unfold port_wants at 1. rewrite E. destruct (wants f j (target t)); [reflexivity|exact IH].
Qed.
Lemma others_lt i n : Forall (fun j => (j < n)%nat) (others i n).
Proof. apply Forall_forall. intros j H. unfold others in H. apply filter_In in H. destruct H as [H _]. apply in_seq in H. lia. Qed.
Lemma others_ne i n j : In j (others i n) -> j <> i /\ (j < n)%nat.
Proof. intros H. unfold others in H. apply filter_In in H. destruct H as [H N]. apply in_seq in H. destruct (Nat.eqb_spec j i); [discriminate|]. split; [assumption|lia]. Qed.

Section Run.
Variable n : nat.
(** One iteration of the routing task. *)
Definition route_step (i : nat) (p : pkt) (r : list pkt) (s : sw) : res sw :=
  let s1 := sw_set_ing i r s in
  match find (port_wants s (target (snd p))) (others i n), nth_error (sw_br s) i with
  | Some j, _ => Ok (sw_set_q i j (sw_q s i j ++ [p]) s1)
  | None, Some f =>
    if non_posted (type_of (snd p))
    then let c := create_ur_completion (snd p) (f_id f) in
         sw_recv i (sw_egress i) (sw_next s, c) (sw_fresh (sw_note (EFree i p (Some (sw_next s, c))) s1))
    else Ok (sw_note (EFree i p None) s1)
  | None, None => Ok s
  end.
Lemma route_eq i p r s h : (i < n)%nat -> inv n h s -> sw_ing s i = p :: r -> sw_route i s = route_step i p r s.
Proof.
  intros I V E. destruct V as [A B C _ _ _ _]. destruct (nth_plain s i B ltac:(lia)) as (f & Ef & Pf). unfold sw_route, route_step. rewrite E, Ef.
  assert (G : good (snd p)).
  { rewrite !Forall_app in C. destruct C as (_ & C & _). rewrite Forall_forall in C. apply C. unfold in_ing. apply in_concat. exists (sw_ing s i).
    split; [apply in_map; apply in_seq0; exact I|]. rewrite E. left. reflexivity. }
  change (sw_br (sw_set_ing i r s)) with (sw_br s). rewrite A.
  rewrite (first_port_spec (sw_set_ing i r s) (snd p) (others i n)); [|exact B|exact G|cbn [sw_set_ing sw_br]; rewrite A; apply others_lt].
  cbn [bind]. change (port_wants (sw_set_ing i r s)) with (port_wants s). destruct (find _ _) as [j|]; [reflexivity|].
  destruct G as (_ & _ & ty & T & N). rewrite T. cbn [bind]. rewrite (unrouted_spec ty _ _ N), (type_of_ok _ _ T). cbn [bind]. destruct (non_posted ty); reflexivity.
Qed.
Lemma hand_good p h s : inv n (p :: h) s -> good (snd p).
Proof. intros [_ _ C _ _ _ _]. apply Forall_cons_iff in C. apply C. Qed.
Lemma recv_inv i d p s : (i < n)%nat -> inv n [p] s ->
  (exists s' f, sw_recv i d p s = Ok s' /\ nth_error (sw_br s) i = Some f /\ got i d p f s s' /\ inv n [] s') \/ (exists e t, sw_recv i d p s = Err e /\ cfg_error t e).
Proof.
  intros I V. pose proof (hand_good _ _ _ V) as G. destruct (nth_plain s i (v_plain _ _ _ V)) as (f & E & P); [rewrite (v_len _ _ _ V); exact I|].
  destruct (recv_got i d p f s E P G) as [(s' & R & Q)|(e & R & Q)]; [left; exists s', f|right; exists e, (snd p); split; assumption].
  split; [exact R|]. split; [exact E|]. split; [exact Q|]. exact (got_inv n i d p f s s' [] I V Q).
Qed.
Lemma pop_ing i p r s : (i < n)%nat -> inv n [] s -> sw_ing s i = p :: r -> inv n [p] (sw_set_ing i r s).
Proof.
  intros I V E. eapply inv_move; [exact V|reflexivity|reflexivity|reflexivity|]. change (in_q n (sw_set_ing i r s)) with (in_q n s).
  cbn [app]. rewrite (ing_pop n i p r s I E). reflexivity.
Qed.
Lemma pop_q i j p r s : (i < n)%nat -> (j < n)%nat -> inv n [] s -> sw_q s i j = p :: r -> inv n [p] (sw_set_q i j r s).
Proof.
  intros I J V E. eapply inv_move; [exact V|reflexivity|reflexivity|reflexivity|]. change (in_ing n (sw_set_q i j r s)) with (in_ing n s).
  cbn [app]. rewrite (q_pop n i j p r s I J E). apply Permutation_middle.
Qed.
Lemma push_q i j p s : (i < n)%nat -> (j < n)%nat -> inv n [p] s -> inv n [] (sw_set_q i j (sw_q s i j ++ [p]) s).
Proof.
  intros I J V. eapply inv_move; [exact V|reflexivity|reflexivity|reflexivity|]. change (in_ing n (sw_set_q i j (sw_q s i j ++ [p]) s)) with (in_ing n s).
  cbn [app]. rewrite (q_put n i j p s I J). symmetry. apply Permutation_middle.
Qed.
Lemma step_inv o s : sop_ok n o -> inv n [] s -> (exists s', sw_step o s = Ok s' /\ inv n [] s') \/ (exists e t, sw_step o s = Err e /\ cfg_error t e).
Proof.
  destruct o as [i t|i|i j]; cbn [sop_ok sw_step].
  - intros [I G] V. destruct (recv_inv i (if is_up i then Down else Up) _ _ I (inv_enter n [] s i t G V)) as [(s' & f & R & _ & _ & V')|R]; [left; exists s'; split; assumption|right; exact R].
  - intros I V. destruct (sw_ing s i) as [|p r] eqn:E; [left; exists s; split; [unfold sw_route; rewrite E; reflexivity|exact V]|].
    rewrite (route_eq i p r s _ I V E). unfold route_step. pose proof (pop_ing i p r s I V E) as V1. destruct (find _ _) as [j|] eqn:Fj.
    + left. eexists. split; [reflexivity|]. apply find_some in Fj. destruct Fj as [Fj _]. apply others_ne in Fj. exact (push_q i j p _ I (proj2 Fj) V1).
    + destruct (nth_plain s i (v_plain _ _ _ V)) as (f & Ef & _); [rewrite (v_len _ _ _ V); exact I|]. rewrite Ef. destruct (non_posted _) eqn:NP.
      * pose proof (inv_answer n p [] _ i _ NP (good_ur (snd p) (f_id f)) V1) as V2. cbv zeta.
        destruct (recv_inv i (sw_egress i) _ _ I V2) as [(s' & g & R & _ & _ & V')|R]; [left; exists s'; split; assumption|right; exact R].
      * left. eexists. split; [reflexivity|]. apply (inv_leave n p [] _ _ []); [reflexivity|reflexivity|exact NP|reflexivity|exact V1].
  - intros [I J] V. unfold sw_transfer. destruct (sw_q s i j) as [|p r] eqn:E; [left; exists s; split; [reflexivity|exact V]|].
    destruct (recv_inv j (sw_egress j) _ _ J (pop_q i j p r s I J V E)) as [(s' & f & R & _ & _ & V')|R]; [left; exists s'; split; assumption|right; exact R].
Qed.
Lemma nil_concat {A} (l : list nat) : concat (map (fun _ => @nil A) l) = [].
Proof. induction l; [reflexivity|assumption]. Qed.
Lemma empty_places root B : in_ing n (sw0 root B) = [] /\ in_q n (sw0 root B) = [].
Proof.
  unfold in_ing, in_q. cbn [sw0 sw_ing sw_q]. split; [apply nil_concat|].
  rewrite (map_ext _ (fun _ => [])) by (intros; apply nil_concat). apply nil_concat.
Qed.
Lemma inv0 root B : length B = n -> Forall plain B -> inv n [] (sw0 root B).
Proof.
  intros L P. destruct (empty_places root B) as [E1 E2]. constructor; cbn [sw0 sw_br sw_next sw_log]; try assumption; unfold all_pkts; rewrite ?E1, ?E2; try constructor.
Qed.
Lemma run_inv ops : forall s, Forall (sop_ok n) ops -> inv n [] s -> match sw_run ops s with Ok s' => inv n [] s' | Err e => exists t, cfg_error t e end.
Proof.
  induction ops as [|o ops IH]; intros s F V; [exact V|]. apply Forall_cons_iff in F. destruct F as [Fo F]. cbn [sw_run].
  destruct (step_inv o s Fo V) as [(s' & E & V')|(e & t & E & C)]; rewrite E; cbn [bind]; [apply IH; assumption|exists t; exact C].
Qed.

(** ** Work *)
Lemma list_sum_perm l l' : Permutation l l' -> list_sum l = list_sum l'.
Proof. induction 1; cbn [list_sum fold_right] in *; unfold list_sum in *; cbn [fold_right] in *; lia. Qed.
Definition w_ing (p : pkt) : nat := if is_cpl (snd p) then 2 else 4.
Definition w_q (p : pkt) : nat := if is_cpl (snd p) then 1 else 3.
Lemma work_eq s : work n s = (list_sum (map w_ing (in_ing n s)) + list_sum (map w_q (in_q n s)))%nat.
Proof. reflexivity. Qed.
Lemma sum_perm (g : pkt -> nat) l l' : Permutation l l' -> list_sum (map g l) = list_sum (map g l').
Proof. intros P. apply list_sum_perm. apply Permutation_map. exact P. Qed.
Lemma sum_cons (g : pkt -> nat) x l : list_sum (map g (x :: l)) = (g x + list_sum (map g l))%nat.
Proof. reflexivity. Qed.
Lemma work_got i p f s s' : (i < n)%nat -> got i (sw_egress i) p f s s' -> (work n s' < work n s + w_q p)%nat.
Proof.
  intros I. assert (W : (1 <= w_q p)%nat) by (unfold w_q; destruct (is_cpl _); lia). intros [f' t' _ _ _ _ _|f' _ _|f' c _ NP An|f' _ _].
  - unfold emit, sw_egress. destruct (is_up i); change (work n s < work n s + w_q p)%nat; lia.
  - change (work n s < work n s + w_q p)%nat. lia.
  - assert (W3 : w_q p = 3%nat). { unfold w_q, is_cpl. destruct (type_of (snd p)); try discriminate; reflexivity. }
    assert (Wc : forall m, w_ing (m, c) = 2%nat). { intros m. unfold w_ing, is_cpl. cbn [snd]. destruct An as (_ & [-> | ->] & _); reflexivity. }
    unfold emit_new, emit, sw_egress. destruct (is_up i); cbn [opp];
      rewrite work_eq, (sum_perm w_ing _ _ (ing_put n i _ _ I)), sum_cons, Wc, W3;
      match goal with |- (2 + ?a + ?b < _)%nat => change (2 + a + b)%nat with (2 + list_sum (map w_ing (in_ing n s)) + list_sum (map w_q (in_q n s)))%nat end;
      rewrite work_eq; lia.
  - change (work n s < work n s + w_q p)%nat. lia.
Qed.
Lemma work_pop_ing i p r s : (i < n)%nat -> sw_ing s i = p :: r -> work n s = (w_ing p + work n (sw_set_ing i r s))%nat.
Proof.
  intros I E. rewrite !work_eq, (sum_perm w_ing _ _ (ing_pop n i p r s I E)). change (in_q n (sw_set_ing i r s)) with (in_q n s).
  rewrite sum_cons. lia.
Qed.
Lemma work_pop_q i j p r s : (i < n)%nat -> (j < n)%nat -> sw_q s i j = p :: r -> work n s = (w_q p + work n (sw_set_q i j r s))%nat.
Proof.
  intros I J E. rewrite !work_eq, (sum_perm w_q _ _ (q_pop n i j p r s I J E)). change (in_ing n (sw_set_q i j r s)) with (in_ing n s).
  rewrite sum_cons. lia.
Qed.
Lemma work_push_q i j p s : (i < n)%nat -> (j < n)%nat -> work n (sw_set_q i j (sw_q s i j ++ [p]) s) = (w_q p + work n s)%nat.
Proof.
  intros I J. rewrite !work_eq, (sum_perm w_q _ _ (q_put n i j p s I J)). change (in_ing n (sw_set_q i j (sw_q s i j ++ [p]) s)) with (in_ing n s).
  rewrite sum_cons. lia.
Qed.
Lemma step_work o s s' : sop_ok n o -> inv n [] s -> busy o s = true -> sw_step o s = Ok s' -> (work n s' < work n s)%nat.
Proof.
  destruct o as [i t|i|i j]; cbn [sop_ok sw_step busy]; [discriminate| |].
  - intros I V Bz. destruct (sw_ing s i) as [|p r] eqn:E; [discriminate|]. rewrite (route_eq i p r s _ I V E), (work_pop_ing i p r s I E). unfold route_step.
    pose proof (pop_ing i p r s I V E) as V1. assert (W : (w_q p < w_ing p)%nat) by (unfold w_q, w_ing; destruct (is_cpl _); lia).
    destruct (find _ _) as [j|] eqn:Fj.
    + intros H. apply Ok_inj in H. subst s'. apply find_some in Fj. destruct Fj as [Fj _]. apply others_ne in Fj.
      pose proof (work_push_q i j p (sw_set_ing i r s) I (proj2 Fj)) as W'. cbn [sw_set_ing sw_q] in W'. cbn [sw_set_ing] in *. lia.
    + destruct (nth_plain s i (v_plain _ _ _ V)) as (f & Ef & _); [rewrite (v_len _ _ _ V); exact I|]. rewrite Ef. destruct (non_posted _) eqn:NP.
      * pose proof (inv_answer n p [] _ i _ NP (good_ur (snd p) (f_id f)) V1) as V2. cbv zeta. intros H.
        destruct (recv_inv i (sw_egress i) _ _ I V2) as [(s2 & g & R & _ & Gt & _)|(e & t & R & _)]; [|cbn [sw_next sw_set_ing] in R; rewrite R in H; discriminate H].
        cbn [sw_next sw_set_ing] in R, Gt. rewrite R in H. apply Ok_inj in H. subst s2. apply (work_got i _ _ _ _ I) in Gt.
        change (work n (sw_fresh (sw_note ?e ?x))) with (work n x) in Gt. change (w_q (sw_next s, create_ur_completion (snd p) (f_id f))) with 1%nat in Gt.
        unfold w_ing in *. destruct (is_cpl _); lia.
      * intros H. apply Ok_inj in H. subst s'. change (work n (sw_note ?e ?x)) with (work n x). unfold w_ing. destruct (is_cpl _); lia.
  - intros [I J] V Bz. unfold sw_transfer. destruct (sw_q s i j) as [|p r] eqn:E; [discriminate|]. rewrite (work_pop_q i j p r s I J E). intros H.
    destruct (recv_inv j (sw_egress j) _ _ J (pop_q i j p r s I J V E)) as [(s2 & f & R & _ & Gt & _)|(e & t & R & _)]; rewrite H in R; [|discriminate R].
    apply Ok_inj in R. subst s2. apply (work_got j _ _ _ _ J) in Gt. lia.
Qed.
Lemma concat_nil {A} (g : nat -> list A) l : concat (map g l) = [] -> forall i, In i l -> g i = [].
Proof.
  induction l as [|x l IH]; intros H i I; [destruct I|]. cbn [map concat] in H. apply app_eq_nil in H. destruct H as [H1 H2]. destruct I as [<-|I]; [exact H1|exact (IH H2 i I)].
Qed.
Lemma work_zero s : (forall o, sop_ok n o -> busy o s = false) -> in_ing n s = [] /\ in_q n s = [].
Proof.
  intros H. split.
  - unfold in_ing. rewrite (map_ext_in _ (fun _ => [])); [apply nil_concat|]. intros i I. apply in_seq in I. specialize (H (SRoute i)). cbn [sop_ok busy] in H.
    destruct (sw_ing s i); [reflexivity|]. discriminate H; lia.
  - unfold in_q. rewrite (map_ext_in _ (fun _ => [])); [apply nil_concat|]. intros i I. apply in_seq in I. rewrite (map_ext_in _ (fun _ => [])); [apply nil_concat|].
    intros j J. apply in_seq in J. specialize (H (STransfer i j)). cbn [sop_ok busy] in H. destruct (sw_q s i j); [reflexivity|]. discriminate H; lia.
Qed.
End Run.

(** ** The forms used in PropertiesSwitch.v *)
Section Final.
Variables (root : bool) (B : list fnc) (ops : list sop).
Hypothesis P : Forall plain B.
Hypothesis O : Forall (sop_ok (length B)) ops.
Lemma final_inv s : sw_run ops (sw0 root B) = Ok s -> inv (length B) [] s.
Proof. intros R. pose proof (run_inv (length B) ops _ O (inv0 (length B) root B eq_refl P)) as H. rewrite R in H. exact H. Qed.
Lemma errors e : sw_run ops (sw0 root B) = Err e ->
  exists t f, (type_of t = CFG_READ_0 \/ type_of t = CFG_WRITE_0) /\ cfg_target t f = true /\ br_handle t f = Err e.
Proof.
  intros R. pose proof (run_inv (length B) ops _ O (inv0 (length B) root B eq_refl P)) as H. rewrite R in H. destruct H as (t & T & f & A & H). exists t, f. split; [exact T|]. split; assumption.
Qed.
End Final.
Lemma one_place root B ops s : Forall plain B -> Forall (sop_ok (length B)) ops -> sw_run ops (sw0 root B) = Ok s ->
  Permutation (map fst (all_pkts (length B) s)) (List.seq 0 (sw_next s)) /\
  map fst (flat_map made (rev (sw_log s))) = List.seq 0 (sw_next s).
Proof. intros P O R. destruct (final_inv root B ops P O s R) as [_ _ _ D E _ _]. split; assumption. Qed.
Lemma content root B ops s p : Forall plain B -> Forall (sop_ok (length B)) ops -> sw_run ops (sw0 root B) = Ok s ->
  In p (all_pkts (length B) s) -> exists t, In (fst p, t) (flat_map made (sw_log s)) /\ same_tlp t (snd p).
Proof. intros P O R I. destruct (final_inv root B ops P O s R) as [_ _ _ _ _ F _]. rewrite Forall_forall in F. exact (F p I). Qed.
Lemma log_ok root B ops s e : Forall plain B -> Forall (sop_ok (length B)) ops -> sw_run ops (sw0 root B) = Ok s -> In e (sw_log s) -> ev_ok e.
Proof. intros P O R I. destruct (final_inv root B ops P O s R) as [_ _ _ _ _ _ G]. rewrite Forall_forall in G. exact (G e I). Qed.
Lemma route_one root B ops s i p r : Forall plain B -> Forall (sop_ok (length B)) ops -> sw_run ops (sw0 root B) = Ok s ->
  (i < length B)%nat -> sw_ing s i = p :: r ->
  let s1 := sw_set_ing i r s in
  match find (port_wants s (target (snd p))) (others i (length B)) with
  | Some j => sw_step (SRoute i) s = Ok (sw_set_q i j (sw_q s i j ++ [p]) s1)
  | None => if non_posted (type_of (snd p))
            then exists c cid, is_ur c (snd p) cid /\
              sw_step (SRoute i) s = sw_recv i (sw_egress i) (sw_next s, c) (sw_fresh (sw_note (EFree i p (Some (sw_next s, c))) s1))
            else sw_step (SRoute i) s = Ok (sw_note (EFree i p None) s1)
  end.
Proof.
  intros P O R I E s1. pose proof (final_inv root B ops P O s R) as V. cbn [sw_step]. rewrite (route_eq (length B) i p r s _ I V E). unfold route_step.
  destruct (find _ _) as [j|]; [reflexivity|]. destruct (nth_plain s i (v_plain _ _ _ V)) as (f & Ef & _); [rewrite (v_len _ _ _ V); exact I|]. rewrite Ef.
  destruct (non_posted _); [|reflexivity]. exists (create_ur_completion (snd p) (f_id f)), (f_id f). split; [apply ur_spec|reflexivity].
Qed.
Lemma progress root B ops s o s' : Forall plain B -> Forall (sop_ok (length B)) ops -> sw_run ops (sw0 root B) = Ok s ->
  sop_ok (length B) o -> busy o s = true -> sw_step o s = Ok s' -> (work (length B) s' < work (length B) s)%nat.
Proof. intros P O R Oo Bz E. exact (step_work (length B) o s s' Oo (final_inv root B ops P O s R) Bz E). Qed.
