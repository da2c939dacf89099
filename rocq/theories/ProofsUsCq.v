(** Completer requests of the UltraScale device models. *)
From Verif Require Import Base BaseProofs ModelUtils ModelTlp ModelFrames ModelUs ModelUsDev SpecUsDev.
From Coq Require Import Lia.

Definition kin (s : cqs) : Prop :=
  Forall (fun u => is_np u = true) (k_np s) /\ 0 <= k_count s <= 32 /\ (k_phase s <> KQueued -> k_np s = [] \/ k_count s = 0).

Lemma overtaken_many l a n p b : overtaken l (a ++ n ++ p :: b) -> Forall (fun u => is_np u = true) n -> is_np p = false ->
  overtaken l (a ++ p :: n ++ b).
Proof.
  revert a b. induction n as [|x n IH] using rev_ind; intros a b H F P; [exact H|].
  apply Forall_app in F as [F X]. apply Forall_inv in X.
  rewrite <- app_assoc in H. cbn in H. rewrite app_assoc in H. apply ov_pass in H; [|exact X|exact P].
  rewrite <- app_assoc in H. apply IH in H; auto. rewrite <- app_assoc. exact H.
Qed.
Lemma overtaken_app l l' x : overtaken l l' -> overtaken (l ++ x) (l' ++ x).
Proof.
  induction 1 as [|l a n p b _ IH N P]; [constructor|].
  rewrite <- app_assoc in *. cbn in *. now apply ov_pass.
Qed.
Lemma type_np u ty : fmt_type (u_tlp u) = Ok ty -> is_np u = type_in ty [IO_READ; IO_WRITE; MEM_READ; MEM_READ_64].
Proof. intros H. unfold is_np. rewrite H. destruct ty; reflexivity. Qed.

Lemma grants_app a b : grants (a ++ b) = grants a + grants b.
Proof. unfold grants. rewrite filter_app. unfold zlen. rewrite app_length. lia. Qed.
Lemma arrivals_app a b : arrivals (a ++ b) = arrivals a ++ arrivals b.
Proof. unfold arrivals. apply flat_map_app. Qed.

Definition kall (done : list cqlabel) (s : cqs) : Prop :=
  kin s /\ overtaken (arrivals done) (k_sent s ++ k_np s ++ k_new s) /\
  zlen (filter is_np (k_sent s)) + k_count s <= grants done.
Lemma zlen_snoc {A} (l : list A) x : zlen (l ++ [x]) = zlen l + 1.
Proof. unfold zlen. rewrite app_length. cbn. lia. Qed.

Lemma kstep done l s s' : kall done s -> cq_step l s = Ok s' -> kall (done ++ [l]) s'.
Proof.
  intros (I & OV & GR) H. unfold kall, kin in *. rewrite grants_app, arrivals_app. destruct I as (F & C & Q).
  destruct l as [u|r|]; cbn [cq_step] in H.
  - apply Ok_inj in H. subst s'. cbn. repeat split; auto; try lia.
    apply (overtaken_app _ _ [u]) in OV. rewrite <- !app_assoc in OV. exact OV.
  - change (arrivals [KClock r]) with (@nil tlp_us). rewrite app_nil_r.
    destruct r; [change (grants [KClock true]) with 1|change (grants [KClock false]) with 0].
    + destruct (k_phase s) eqn:P; apply Ok_inj in H; subst s'; cbn; rewrite ?P; repeat split; auto; try lia; congruence.
    + destruct (k_phase s) eqn:P; apply Ok_inj in H; subst s'; cbn; rewrite ?P; repeat split; auto; try lia; congruence.
  - change (arrivals [KStep]) with (@nil tlp_us). rewrite app_nil_r. change (grants [KStep]) with 0.
    destruct (k_phase s) eqn:P; cbn [bind] in H.
    + apply Ok_inj in H. subst s'. rewrite P. repeat split; auto; lia.
    + destruct (k_np s) as [|u r] eqn:N.
      * apply Ok_inj in H. subst s'. cbn. rewrite ?N. repeat split; auto; lia.
      * destruct (k_count s >? 0) eqn:K.
        -- destruct (cq_send u); cbn [bind] in H; [|discriminate]. apply Ok_inj in H. subst s'. cbn.
           inversion F; subst. repeat split; auto; try lia; try congruence.
           ++ rewrite <- app_assoc. exact OV.
           ++ rewrite filter_app. cbn. rewrite H1, zlen_snoc. lia.
        -- apply Ok_inj in H. subst s'. cbn. rewrite ?N. repeat split; auto; try lia.
    + specialize (Q ltac:(discriminate)). destruct (k_new s) as [|u r] eqn:N.
      * apply Ok_inj in H. subst s'. cbn. repeat split; auto; lia.
      * destruct (fmt_type (u_tlp u)) as [ty|] eqn:T; cbn [bind] in H; [|discriminate]. pose proof (type_np u ty T) as TN.
        destruct (type_in ty _) eqn:TI.
        -- destruct (k_count s >? 0) eqn:K.
           ++ destruct (cq_send u); cbn [bind] in H; [|discriminate]. apply Ok_inj in H. subst s'. cbn.
              destruct Q as [Q|Q]; [|lia]. rewrite Q in *. repeat split; auto; try lia.
              ** rewrite <- app_assoc. exact OV.
              ** rewrite filter_app. cbn. rewrite TN, zlen_snoc. lia.
           ++ apply Ok_inj in H. subst s'. cbn. repeat split; auto; try lia.
              ** apply Forall_app. auto.
              ** rewrite <- app_assoc. exact OV.
        -- destruct (cq_send u); cbn [bind] in H; [|discriminate]. apply Ok_inj in H. subst s'. cbn.
           repeat split; auto; try lia.
           ++ apply overtaken_many in OV; auto. rewrite <- app_assoc. exact OV.
           ++ rewrite filter_app. cbn. rewrite TN, app_nil_r. lia.
Qed.
Lemma krun done ls s s' : kall done s -> cq_run ls s = Ok s' -> kall (done ++ ls) s'.
Proof.
  revert done s. induction ls as [|l ls IH]; cbn; intros done s I H.
  - apply Ok_inj in H. subst. now rewrite app_nil_r.
  - destruct (cq_step l s) eqn:E; cbn in H; [|discriminate].
    specialize (IH (done ++ [l]) _ (kstep _ _ _ _ I E) H). now rewrite <- app_assoc in IH.
Qed.
Lemma krun0 ls s : cq_run ls cqs0 = Ok s -> kall ls s.
Proof. intros H. apply (krun [] ls cqs0 s); auto. unfold kall, kin. cbn. repeat split; auto; try lia. constructor. Qed.

Lemma cq_order ls s : cq_run ls cqs0 = Ok s -> overtaken (arrivals ls) (k_sent s ++ k_np s ++ k_new s) /\ Forall (fun u => is_np u = true) (k_np s).
Proof. intros H. apply krun0 in H as ((F & _) & OV & _). auto. Qed.
Lemma cq_credit ls s : cq_run ls cqs0 = Ok s -> zlen (filter is_np (k_sent s)) + k_count s <= grants ls /\ 0 <= k_count s <= 32.
Proof. intros H. apply krun0 in H as ((_ & C & _) & _ & G). auto. Qed.

(** What [overtaken] means for the two kinds. *)
Lemma overtaken_split l l' : overtaken l l' -> filter is_np l' = filter is_np l /\
  filter (fun u => negb (is_np u)) l' = filter (fun u => negb (is_np u)) l.
Proof.
  induction 1 as [|l a n p b _ [IH1 IH2] N P]; [auto|].
  rewrite !filter_app in *. cbn in *. rewrite N, P in *. cbn in *. auto.
Qed.
Lemma overtaken_behind l l' : overtaken l l' -> forall a n b, l' = a ++ n :: b -> is_np n = true ->
  exists c d, l = c ++ n :: d /\ filter is_np c = filter is_np a /\
    exists x, filter (fun u => negb (is_np u)) a = filter (fun u => negb (is_np u)) c ++ x.
Proof.
  induction 1 as [|l a0 m p b0 _ IH N P]; intros a n b E NN.
  - subst. exists a, b. split; [reflexivity|]. split; [reflexivity|]. exists []. now rewrite app_nil_r.
  - apply app_eq_app in E as [c [[-> E]|[-> E]]].
    + destruct c as [|y c]; cbn in E.
      * injection E as <- E. congruence.
      * injection E as <- E. destruct (IH a n (c ++ m :: p :: b0)) as (x & y & -> & H1 & H2); auto.
        { rewrite <- app_assoc. reflexivity. }
        exists x, y. auto.
    + destruct c as [|y c]; cbn in E; [injection E as <- E; congruence|].
      injection E as <- E. destruct c as [|z c]; cbn in E.
      * injection E as <- <-. destruct (IH a0 m (p :: b0) eq_refl NN) as (x & y & -> & H1 & z & H2).
        exists x, y. split; [reflexivity|]. rewrite !filter_app. cbn. rewrite P. cbn. rewrite app_nil_r. split; [auto|].
        exists (z ++ [p]). rewrite H2. now rewrite app_assoc.
      * injection E as <- ->. destruct (IH (a0 ++ m :: p :: c) n b) as (x & y & -> & H1 & z & H2); auto.
        { now rewrite <- app_assoc. }
        exists x, y. split; [reflexivity|]. rewrite !filter_app in *. cbn in *. rewrite P, N in *. cbn in *. split; [auto|].
        exists z. exact H2.
Qed.

(** Delivery. *)
Lemma idle_steps m s : k_phase s = KEdge -> cq_run (repeat KStep m) s = Ok s.
Proof. intros P. induction m; cbn; [auto|]. rewrite P. cbn. exact IHm. Qed.

Lemma drain_new m s : k_phase s = KNew -> 0 <= k_count s -> Forall sendable (k_np s ++ k_new s) -> (length (k_new s) < m)%nat ->
  exists s', cq_run (repeat KStep m) s = Ok s' /\ k_phase s' = KEdge /\ k_new s' = [] /\ Forall sendable (k_np s') /\
    0 <= k_count s' /\ (length (k_np s') <= waiting s)%nat /\
    (0 < k_count s -> k_new s <> [] -> (length (k_np s') < waiting s)%nat).
Proof.
  unfold waiting. revert s. induction m as [|m IH]; intros s P C F L; [lia|].
  cbn [repeat cq_run cq_step]. rewrite P. destruct (k_new s) as [|u r] eqn:N.
  - cbn [bind]. eexists. rewrite idle_steps by reflexivity. split; [reflexivity|]. cbn. rewrite app_nil_r in F.
    repeat split; auto; try lia; congruence.
  - apply Forall_app in F as [F1 F2]. inversion F2 as [|x l [[ty T] [f SD]] F3 E1]; subst. cbn [length] in L.
    rewrite T. cbn [bind].
    assert (X : forall s1, k_phase s1 = KNew -> 0 <= k_count s1 -> Forall sendable (k_np s1 ++ r) -> k_new s1 = r ->
      (length (k_np s1) <= length (k_np s) + 1)%nat -> (0 < k_count s -> length (k_np s1) = length (k_np s)) ->
      exists s', cq_run (repeat KStep m) s1 = Ok s' /\ k_phase s' = KEdge /\ k_new s' = [] /\ Forall sendable (k_np s') /\
        0 <= k_count s' /\ (length (k_np s') <= length (k_np s) + S (length r))%nat /\
        (0 < k_count s -> u :: r <> [] -> (length (k_np s') < length (k_np s) + S (length r))%nat)).
    { intros s1 P1 C1 F4 E L1 L2. subst r. destruct (IH s1 P1 C1 F4) as (s' & R & A1 & A2 & A3 & A4 & A5 & _); [lia|].
      exists s'. repeat split; auto; lia. }
    cbn [length]. destruct (type_in ty _).
    + destruct (k_count s >? 0) eqn:K.
      * unfold cq_send; rewrite SD. cbn [bind]. apply X; cbn; auto; try lia. apply Forall_app. auto.
      * cbn [bind]. apply X; cbn; auto; try lia; rewrite ?app_length; cbn; try lia.
        rewrite <- app_assoc. apply Forall_app. auto.
    + unfold cq_send; rewrite SD. cbn [bind]. apply X; cbn; auto; try lia. apply Forall_app. auto.
Qed.
Lemma drain_queue m s : k_phase s = KQueued -> 0 <= k_count s -> Forall sendable (k_np s ++ k_new s) -> (waiting s + 1 < m)%nat ->
  exists s', cq_run (repeat KStep m) s = Ok s' /\ k_phase s' = KEdge /\ k_new s' = [] /\ Forall sendable (k_np s') /\
    0 <= k_count s' /\ (length (k_np s') <= waiting s)%nat /\
    (0 < k_count s -> waiting s <> O -> (length (k_np s') < waiting s)%nat).
Proof.
  unfold waiting. revert s. induction m as [|m IH]; intros s P C F L; [lia|].
  cbn [repeat cq_run cq_step]. rewrite P. destruct (k_np s) as [|u r] eqn:N; cbn [length] in *.
  - cbn [bind]. destruct (drain_new m (mkCqs KNew (k_new s) (k_np s) (k_count s) (k_sent s))) as (s' & R & A1 & A2 & A3 & A4 & A5 & A6);
      cbn; rewrite ?N; auto; try lia. unfold waiting in *. cbn in *. rewrite N in *. exists s'. repeat split; auto.
    intros K1 K2. apply A6; auto. now destruct (k_new s).
  - destruct (k_count s >? 0) eqn:K.
    + inversion F as [|x l [_ [f SD]] F3 E1]; subst. unfold cq_send; rewrite SD. cbn [bind].
      destruct (IH (mkCqs KQueued (k_new s) r (k_count s - 1) (k_sent s ++ [u]))) as (s' & R & A1 & A2 & A3 & A4 & A5 & _);
        cbn; auto; try lia. cbn in A5. exists s'. repeat split; auto; lia.
    + cbn [bind]. destruct (drain_new m (mkCqs KNew (k_new s) (k_np s) (k_count s) (k_sent s))) as (s' & R & A1 & A2 & A3 & A4 & A5 & _);
      cbn; rewrite ?N; auto; try lia. unfold waiting in *. cbn in *. rewrite N in *. cbn [length] in *. exists s'. repeat split; auto; lia.
Qed.
Lemma cq_run_app a b s : cq_run (a ++ b) s = (s' <- cq_run a s ;; cq_run b s').
Proof. revert s. induction a as [|x a IH]; intros s; cbn; [reflexivity|]. destruct (cq_step x s); cbn; auto. Qed.
Lemma periods m n s : k_phase s = KEdge -> k_new s = [] -> 0 <= k_count s -> Forall sendable (k_np s) -> (waiting s + 1 < m)%nat -> (waiting s <= n)%nat ->
  exists s', cq_run (concat (repeat (period m) n)) s = Ok s' /\ k_np s' = [] /\ k_new s' = [].
Proof.
  unfold waiting. revert s. induction n as [|n IH]; intros s P E C F L1 L2; rewrite E in *; cbn [length] in *.
  - exists s. cbn. repeat split; auto. destruct (k_np s); [auto|cbn in L2; lia].
  - cbn [repeat concat]. rewrite cq_run_app. cbn [period cq_run cq_step]. rewrite P. cbn [bind].
    destruct (drain_queue m (mkCqs KQueued (k_new s) (k_np s) (Z.min (k_count s + 1) 32) (k_sent s))) as (s' & R & A1 & A2 & A3 & A4 & A5 & A6);
      unfold waiting in *; cbn in *; rewrite ?E in *; rewrite ?app_nil_r; auto; try lia.
    cbn in *. rewrite R. cbn [bind]. apply IH; auto; rewrite A2; cbn [length]; [lia|].
    destruct (k_np s) as [|x r]; cbn [length] in *; [lia|]. specialize (A6 ltac:(lia) ltac:(lia)). lia.
Qed.
Lemma cq_delivered ls s n m : cq_run ls cqs0 = Ok s -> Forall sendable (k_np s ++ k_new s) ->
  (waiting s <= n)%nat -> (waiting s + 1 < m)%nat ->
  exists s', cq_run (ls ++ repeat KStep m ++ concat (repeat (period m) n)) cqs0 = Ok s' /\ k_np s' = [] /\ k_new s' = [] /\
    overtaken (arrivals ls) (k_sent s').
Proof.
  intros H F L1 L2. pose proof (krun0 _ _ H) as ((F0 & C & _) & _ & _).
  assert (X : exists s', cq_run (repeat KStep m ++ concat (repeat (period m) n)) s = Ok s' /\ k_np s' = [] /\ k_new s' = []).
  { rewrite cq_run_app. destruct (k_phase s) eqn:P.
    - rewrite idle_steps by exact P. cbn [bind]. destruct n as [|n].
      + unfold waiting in *. exists s. cbn. repeat split; auto; [destruct (k_np s)|destruct (k_new s)]; auto; cbn in *; lia.
      + cbn [repeat concat]. rewrite cq_run_app. cbn [period cq_run cq_step]. rewrite P. cbn [bind].
        destruct (drain_queue m (mkCqs KQueued (k_new s) (k_np s) (Z.min (k_count s + 1) 32) (k_sent s))) as (s' & R & A1 & A2 & A3 & A4 & A5 & A6);
          unfold waiting in *; cbn in *; auto; try lia.
        rewrite R. cbn [bind]. apply periods; auto; unfold waiting; rewrite A2; cbn [length]; [lia|].
        destruct (Nat.eq_dec (length (k_np s) + length (k_new s)) 0) as [Q|Q]; [lia|]. specialize (A6 ltac:(lia) Q). lia.
    - destruct (drain_queue m s) as (s' & R & A1 & A2 & A3 & A4 & A5 & _); auto; try lia.
      rewrite R. cbn [bind]. apply periods; auto; unfold waiting; rewrite A2; cbn [length]; lia.
    - destruct (drain_new m s) as (s' & R & A1 & A2 & A3 & A4 & A5 & _); auto; try lia; [unfold waiting in *; lia|].
      rewrite R. cbn [bind]. apply periods; auto; unfold waiting; rewrite A2; cbn [length]; lia. }
  destruct X as (s' & R & A1 & A2). exists s'.
  assert (R' : cq_run (ls ++ repeat KStep m ++ concat (repeat (period m) n)) cqs0 = Ok s') by (rewrite cq_run_app, H; exact R).
  split; [exact R'|]. split; [auto|]. split; [auto|].
  apply krun0 in R' as (_ & OV & _). rewrite A1, A2, app_nil_r in OV. rewrite !arrivals_app in OV.
  assert (Z1 : forall k, arrivals (repeat KStep k) = []) by (induction k; cbn; auto).
  assert (Z2 : forall k, arrivals (concat (repeat (period m) k)) = []).
  { induction k; cbn [repeat concat]; [reflexivity|]. rewrite arrivals_app, IHk, app_nil_r. exact (Z1 m). }
  rewrite Z1, Z2, !app_nil_r in OV. exact OV.
Qed.
