From Verif Require Import Base BaseProofs ModelTlp ModelRegion ModelTags SpecTags.

(** ** Allocation *)
Lemma alloc_loop_ok count active : 0 < count -> forall k tag t, alloc_loop k count active tag = Some t ->
  0 <= t < count /\ active t = false.
Proof.
  intros C. induction k as [|k IH]; intros tag t H; [discriminate|]. cbn [alloc_loop] in H.
  destruct (negb (active ((tag + 1) mod count))) eqn:E; [|eauto].
  injection H as <-. split; [apply Z.mod_pos_bound; exact C|]. destruct (active _); [discriminate|reflexivity].
Qed.
Lemma alloc_loop_none count active : 0 < count -> forall k tag, alloc_loop k count active tag = None ->
  forall j, (1 <= j <= k)%nat -> active ((tag + Z.of_nat j) mod count) = true.
Proof.
  intros C. induction k as [|k IH]; intros tag H j J; [lia|]. cbn [alloc_loop] in H.
  destruct (negb (active ((tag + 1) mod count))) eqn:E; [discriminate|].
  destruct (Nat.eq_dec j 1) as [->|N]; [destruct (active _); [reflexivity|discriminate]|].
  specialize (IH _ H (j - 1)%nat). rewrite Zplus_mod_idemp_l in IH.
  replace (tag + Z.of_nat j) with (tag + 1 + Z.of_nat (j - 1)) by lia. apply IH. lia.
Qed.
Lemma alloc_some limit s t : alloc limit s = Some t -> 0 <= t < limit /\ t_active s t = false.
Proof.
  unfold alloc. intros H. destruct (Z.leb_spec limit 0) as [L|L].
  - replace (Z.to_nat limit) with O in H by lia. discriminate.
  - eapply alloc_loop_ok; eauto.
Qed.
(** No tag is found only if all are in use. *)
Lemma alloc_none limit s : alloc limit s = None -> forall t, 0 <= t < limit -> t_active s t = true.
Proof.
  unfold alloc. intros H t T. assert (C : 0 < limit) by lia.
  pose proof (alloc_loop_none limit (t_active s) C _ _ H) as A.
  set (d := (t - t_cur s - 1) mod limit).
  pose proof (Z.mod_pos_bound (t - t_cur s - 1) limit C) as B. fold d in B.
  specialize (A (S (Z.to_nat d))). rewrite Nat2Z.inj_succ, Z2Nat.id in A by lia.
  replace (Z.succ d) with (d + 1) in A by lia.
  replace ((t_cur s + (d + 1)) mod limit) with t in A; [apply A; lia|].
  replace (t_cur s + (d + 1)) with (t_cur s + 1 + d) by lia. unfold d. rewrite Zplus_mod_idemp_r.
  replace (t_cur s + 1 + (t - t_cur s - 1)) with t by lia. symmetry. apply Z.mod_small. exact T.
Qed.

(** ** The invariant *)
Record tinv (s : tags) : Prop := mkTi {
  i_act : forall i t, tag_of (t_op s i) = Some t -> t_active s t = true /\ 0 <= t < 256;
  i_uni : forall i j t, tag_of (t_op s i) = Some t -> tag_of (t_op s j) = Some t -> i = j;
  i_own : forall t, t_active s t = true -> exists i, tag_of (t_op s i) = Some t;
  i_lim : forall i r l, t_op s i = OAlloc r l -> l <= 256;
  i_que : forall t, arrived t (t_hist s) = delivered t (t_hist s) ++ t_queue s t;
  i_got : forall i, got (t_op s i) = delivered_to i (t_hist s);
  i_tag : forall i t, used_tag (t_op s i) = Some t -> Forall (fun x => tag (snd x) = t) (got (t_op s i));
  i_req : forall i t r, used_tag (t_op s i) = Some t -> request_of (t_op s i) = Some r -> tag r = t;
  i_qtag : forall t, Forall (fun x => tag (snd x) = t) (t_queue s t) }.

Lemma nset_same {A} k (v : A) f : nset k v f k = v.
Proof. unfold nset. rewrite Nat.eqb_refl. reflexivity. Qed.
Lemma nset_other {A} k (v : A) f x : x <> k -> nset k v f x = f x.
Proof. unfold nset. intros H. apply Nat.eqb_neq in H. rewrite H. reflexivity. Qed.
Lemma fset_same {A} k (v : A) f : fset k v f k = v.
Proof. unfold fset. rewrite Z.eqb_refl. reflexivity. Qed.
Lemma fset_other {A} k (v : A) f x : x <> k -> fset k v f x = f x.
Proof. unfold fset. intros H. apply Z.eqb_neq in H. rewrite H. reflexivity. Qed.
Ltac nset j i := destruct (Nat.eq_dec j i) as [->|]; [rewrite ?nset_same in *|rewrite ?(nset_other i) in * by assumption].
Ltac fset j i := destruct (Z.eq_dec j i) as [->|]; [rewrite ?fset_same in *|rewrite ?(fset_other i) in * by assumption].

(** An operation changes without touching tags. *)
Lemma inv_set_op i o s : tinv s -> tag_of o = tag_of (t_op s i) -> got o = got (t_op s i) ->
  (forall r l, o = OAlloc r l -> l <= 256) ->
  (forall t, used_tag o = Some t -> Forall (fun x => tag (snd x) = t) (got o)) ->
  (forall t r, used_tag o = Some t -> request_of o = Some r -> tag r = t) -> tinv (set_op i o s).
Proof.
  intros [] T G L U R. constructor; cbn [t_op t_active t_hist t_queue set_op]; auto.
  - intros j t H. nset j i; [rewrite T in H|]; eauto.
  - intros j k t H1 H2. nset j i; nset k i; auto; rewrite ?T in *; eauto.
  - intros t H. destruct (i_own0 t H) as [j Hj]. exists j. nset j i; congruence.
  - intros j r l H. nset j i; eauto.
  - intros j. nset j i; [rewrite G|]; auto.
  - intros j t H. nset j i; auto.
  - intros j t r H1 H2. nset j i; eauto.
Qed.
Lemma inv_try i r limit s : tinv s -> limit <= 256 -> tag_of (t_op s i) = None -> got (t_op s i) = [] -> tinv (try_alloc i r limit s).
Proof.
  intros I L T G. unfold try_alloc. destruct (alloc limit s) as [tag|] eqn:E.
  - destruct I. apply alloc_some in E. destruct E as [E1 E2]. constructor; cbn [t_op t_active t_hist t_queue]; auto.
    + intros j t H. nset j i.
      * cbn in H. injection H as <-. rewrite fset_same. split; [reflexivity|lia].
      * destruct (i_act0 j t H) as [H1 H2]. split; [|exact H2]. fset t tag; auto.
    + intros j k t H1 H2. nset j i; nset k i; auto.
      * cbn in H1. injection H1 as <-. apply i_act0 in H2. destruct H2. congruence.
      * cbn in H2. injection H2 as <-. apply i_act0 in H1. destruct H1. congruence.
      * eauto.
    + intros t H. fset t tag; [exists i; rewrite nset_same; reflexivity|].
      destruct (i_own0 t H) as [j Hj]. exists j. nset j i; congruence.
    + intros j r0 l H. nset j i; [discriminate|eauto].
    + intros j. nset j i; [|auto]. rewrite <- i_got0, G. reflexivity.
    + intros j t H. nset j i; auto. constructor.
    + intros j t r0 H1 H2. nset j i; [|eauto]. cbn in H1, H2. injection H1 as <-. injection H2 as <-. reflexivity.
  - apply inv_set_op; auto; try discriminate. intros r0 l H. injection H as _ <-. exact L.
Qed.
Lemma arrived_app t l m : arrived t (l ++ m) = arrived t l ++ arrived t m. Proof. apply flat_map_app. Qed.
Lemma delivered_app t l m : delivered t (l ++ m) = delivered t l ++ delivered t m. Proof. apply flat_map_app. Qed.
Lemma delivered_to_app t l m : delivered_to t (l ++ m) = delivered_to t l ++ delivered_to t m. Proof. apply flat_map_app. Qed.
Lemma answers_app t l m : answers t (l ++ m) = answers t l ++ answers t m. Proof. apply flat_map_app. Qed.
Lemma tag_limit_le s : tag_limit s <= 256.
Proof. unfold tag_limit. destruct (t_rc s), (t_ext s); lia. Qed.


Lemma done_inv i r t acc s q x : tinv s -> t_op s i = ORecv r t acc ->
  t_queue s t = map (fun y => y) x ++ q -> (x = [] \/ exists o c, x = [(o, c)]) ->
  let h := flat_map (fun y => [HTake i (fst y) (snd y)]) x in
  exists s', release_tag t (set_op i (ODone r t (acc ++ x))
      (mkTags (t_rc s) (t_ext s) (t_count s) (t_cur s) (t_active s) (fset t q (t_queue s)) (t_op s) (t_hist s ++ h))) = Ok s' /\ tinv s'.
Proof.
  intros I E Q X h. rewrite map_id in Q. destruct I.
  destruct (i_act0 i t) as [A B]; [rewrite E; reflexivity|].
  unfold release_tag. cbn [t_active set_op]. rewrite A. eexists. split; [reflexivity|].
  pose proof (i_qtag0 t) as Qt. rewrite Q in Qt. apply Forall_app in Qt. destruct Qt as [Qx Qq].
  constructor; cbn [t_op t_active t_hist t_queue set_op].
  - intros j u H. nset j i; [discriminate|]. destruct (i_act0 j u H) as [H1 H2]. split; [|exact H2].
    fset u t; [|auto]. exfalso. apply n. eapply i_uni0; [exact H|]. rewrite E. reflexivity.
  - intros j k u H1 H2. nset j i; [discriminate|]. nset k i; [discriminate|]. eauto.
  - intros u H. fset u t; [discriminate|]. destruct (i_own0 u H) as [j Hj]. exists j. nset j i; [|exact Hj].
    rewrite E in Hj. cbn in Hj. congruence.
  - intros j r0 l H. nset j i; [discriminate|eauto].
  - intros u. rewrite arrived_app, delivered_app.
    assert (Ha : arrived u h = []) by (destruct X as [->|(o & c & ->)]; reflexivity).
    rewrite Ha, app_nil_r, (i_que0 u). fset u t.
    + rewrite Q, <- app_assoc. f_equal. f_equal.
      destruct X as [->|(o & c & ->)]; [reflexivity|]. apply Forall_inv in Qx. cbn in Qx |- *. rewrite Qx, Z.eqb_refl. reflexivity.
    + assert (Hd : delivered u h = []).
      { destruct X as [->|(o & c & ->)]; [reflexivity|]. apply Forall_inv in Qx. cbn in Qx |- *. rewrite Qx.
        destruct (Z.eqb_spec t u); [congruence|reflexivity]. }
      rewrite Hd, app_nil_r. reflexivity.
  - intros j. rewrite delivered_to_app. nset j i.
    + cbn [got]. rewrite <- i_got0, E. cbn [got]. f_equal. destruct X as [->|(o & c & ->)]; [reflexivity|]. cbn. rewrite Nat.eqb_refl. reflexivity.
    + rewrite i_got0. assert (Hd : delivered_to j h = []).
      { destruct X as [->|(o & c & ->)]; [reflexivity|]. cbn. destruct (Nat.eqb_spec i j); [congruence|reflexivity]. }
      rewrite Hd, app_nil_r. reflexivity.
  - intros j u H. nset j i; [|auto]. cbn in H. injection H as <-. cbn [got]. apply Forall_app. split; [|exact Qx].
    specialize (i_tag0 i t). rewrite E in i_tag0. apply i_tag0. reflexivity.
  - intros j u r0 H1 H2. nset j i; [|eauto]. cbn in H1, H2. injection H1 as <-. injection H2 as <-.
    eapply (i_req0 i); rewrite E; reflexivity.
  - intros u. fset u t; auto.
Qed.

Lemma tstep_inv e s : tinv s -> cpl_tags e s -> exists s', tstep e s = Ok s' /\ tinv s'.
Proof.
  intros I K. destruct e as [i r|i|i|i|o c|i|i|ext n]; cbn [tstep].
  - destruct (t_op s i) eqn:E; eauto. eexists. split; [reflexivity|]. apply inv_try; auto using tag_limit_le; rewrite E; reflexivity.
  - destruct (t_op s i) eqn:E; eauto. eexists. split; [reflexivity|]. apply inv_try; auto; try (rewrite E; reflexivity). eapply i_lim; eauto.
  - destruct (t_op s i) eqn:E; eauto. eexists. split; [reflexivity|]. apply inv_set_op; auto; try (rewrite E; reflexivity); try discriminate.
    + intros t H. constructor.
    + intros t r0 H1 H2. eapply (i_req s I i); rewrite E; eauto.
  - destruct (t_op s i) eqn:E; eauto. eexists. split; [reflexivity|]. apply inv_set_op; auto; try (rewrite E; reflexivity); try discriminate.
    + intros t H. constructor.
    + intros t r0 H1 H2. eapply (i_req s I i); rewrite E; eauto.
  - cbn in K. replace ((0 <=? tag c) && (tag c <? 256)) with true by lia. eexists. split; [reflexivity|].
    destruct I. constructor; cbn [t_op t_active t_hist t_queue]; auto.
    + intros t. rewrite arrived_app, delivered_app, i_que0. cbn. fset t (tag c).
      * rewrite Z.eqb_refl, !app_nil_r, app_assoc. reflexivity.
      * destruct (Z.eqb_spec (tag c) t); [congruence|]. rewrite !app_nil_r. reflexivity.
    + intros i. rewrite delivered_to_app, i_got0. cbn. rewrite app_nil_r. reflexivity.
    + intros t. fset t (tag c); [|auto]. apply Forall_app. split; auto.
  - destruct (t_op s i) as [| | |r t acc| |] eqn:E; eauto. destruct (t_queue s t) as [|[o c] q] eqn:Q; eauto.
    destruct (ends r c).
    + apply (done_inv i r t acc s q [(o, c)]); auto. right. eauto.
    + eexists. split; [reflexivity|]. destruct I. pose proof (i_qtag0 t) as Qt. rewrite Q in Qt.
      pose proof (Forall_inv Qt) as Qx. apply Forall_inv_tail in Qt. cbn in Qx.
      constructor; cbn [t_op t_active t_hist t_queue set_op]; auto.
      * intros j u H. nset j i; [cbn in H; apply (i_act0 i); rewrite E; exact H|eauto].
      * intros j k u H1 H2. nset j i; nset k i; auto.
        -- eapply i_uni0; [rewrite E|]; eauto.
        -- eapply i_uni0; [|rewrite E]; eauto.
        -- eauto.
      * intros u H. destruct (i_own0 u H) as [j Hj]. exists j. nset j i; [|exact Hj]. rewrite E in Hj. exact Hj.
      * intros j r0 l H. nset j i; [discriminate|eauto].
      * intros u. rewrite arrived_app, delivered_app, i_que0. cbn. rewrite app_nil_r. fset u t.
        -- rewrite Q, Qx, Z.eqb_refl, <- app_assoc. reflexivity.
        -- destruct (Z.eqb_spec (tag c) u); [congruence|]. rewrite app_nil_r. reflexivity.
      * intros j. rewrite delivered_to_app. cbn. rewrite app_nil_r. nset j i.
        -- cbn [got]. rewrite Nat.eqb_refl, <- i_got0, E. reflexivity.
        -- destruct (Nat.eqb_spec i j); [congruence|]. rewrite app_nil_r. auto.
      * intros j u H. nset j i; [|auto]. cbn in H. injection H as <-. cbn [got]. apply Forall_app. split; [|auto].
        specialize (i_tag0 i t). rewrite E in i_tag0. apply i_tag0. reflexivity.
      * intros j u r0 H1 H2. nset j i; [|eauto]. eapply (i_req0 i); rewrite E; eauto.
      * intros u. fset u t; auto.
  - destruct (t_op s i) as [| | |r t acc| |] eqn:E; eauto. destruct (t_queue s t) as [|[o c] q] eqn:Q; eauto.
    destruct (done_inv i r t acc s [] [] I E) as (s' & H & I'); [rewrite Q; reflexivity|auto|].
    cbn [flat_map] in H. rewrite !app_nil_r in H.
    unfold release_tag in *. cbn [t_active set_op] in *. destruct (t_active s t) eqn:A; [|discriminate].
    eexists. split; [reflexivity|]. injection H as <-. destruct I' as [J1 J2 J3 J4 J5 J6 J7 J8 J9].
    constructor; cbn [t_op t_active t_hist t_queue set_op] in *; auto.
    + intros u. specialize (J5 u). fset u t; rewrite ?Q; auto.
    + intros u. specialize (J9 u). fset u t; rewrite ?Q; auto.
  - eexists. split; [reflexivity|]. destruct I. constructor; auto.
Qed.
Lemma tags_new_inv rc : tinv (tags_new rc).
Proof. constructor; try discriminate; cbn; auto. Qed.
Lemma trun_inv es : forall s, tinv s -> along cpl_tags es s -> exists s', trun es s = Ok s' /\ tinv s'.
Proof.
  induction es as [|e es IH]; intros s I [K1 K2] || intros s I K; cbn [trun]; eauto.
  destruct (tstep_inv e s I K1) as (s' & E & I'). rewrite E in *. cbn [bind]. auto.
Qed.
Lemma tstep_tags e s s' : tstep e s = Ok s' -> cpl_tags e s.
Proof. destruct e; cbn; auto. destruct ((0 <=? tag c) && (tag c <? 256)) eqn:E; [lia|discriminate]. Qed.
Lemma treach_inv rc s : treach rc s -> tinv s.
Proof.
  intros (es & H). revert H. generalize (tags_new_inv rc). generalize (tags_new rc).
  induction es as [|e es IH]; intros s0 I H; cbn [trun] in H; [injection H as <-; exact I|].
  destruct (tstep e s0) as [s1|] eqn:E; [|discriminate]. cbn [bind] in H.
  destruct (tstep_inv e s0 I (tstep_tags _ _ _ E)) as (s1' & E' & I1). rewrite E in E'. injection E' as <-. eauto.
Qed.

(** ** C19 *)
Lemma tags_unique rc s i j t : treach rc s -> tag_of (t_op s i) = Some t -> tag_of (t_op s j) = Some t -> i = j.
Proof. intros R. apply (i_uni s (treach_inv _ _ R)). Qed.
Lemma tag_range rc s i t : treach rc s -> tag_of (t_op s i) = Some t -> 0 <= t < 256 /\
  forall r, request_of (t_op s i) = Some r -> tag r = t.
Proof.
  intros R H. destruct (treach_inv _ _ R). split; [apply (i_act0 i t H)|]. intros r Hr. eapply i_req0; [|exact Hr].
  destruct (t_op s i); cbn in *; congruence.
Qed.
Lemma call_tag rc s i r s' : treach rc s -> t_op s i = OIdle -> tstep (TCall i r) s = Ok s' ->
  let limit := Z.min (if t_rc s || t_ext s then 256 else 32) (t_count s) in
  (exists t, t_op s' i = OSend (set_tag t r) t /\ 0 <= t < limit /\ forall j, tag_of (t_op s j) <> Some t) \/
  (t_op s' i = OAlloc r limit /\ forall t, 0 <= t < limit -> exists j, tag_of (t_op s j) = Some t).
Proof.
  intros R E H limit. assert (EL : limit = tag_limit s) by (unfold limit, tag_limit; destruct (t_rc s), (t_ext s); reflexivity).
  rewrite EL in *. clear limit EL. destruct (treach_inv _ _ R). cbn [tstep] in H. rewrite E in H. injection H as <-.
  unfold try_alloc. destruct (alloc (tag_limit s) s) as [t|] eqn:A.
  - left. exists t. cbn [t_op]. rewrite nset_same. apply alloc_some in A. destruct A as [A1 A2].
    split; [reflexivity|]. split; [exact A1|]. intros j H. apply i_act0 in H. destruct H. congruence.
  - right. cbn [t_op set_op]. rewrite nset_same. split; [reflexivity|]. intros t T. apply i_own0. eapply alloc_none; eauto.
Qed.
Lemma wake_tag rc s i r l s' : treach rc s -> t_op s i = OAlloc r l -> tstep (TWake i) s = Ok s' ->
  (exists t, t_op s' i = OSend (set_tag t r) t /\ 0 <= t < l /\ forall j, tag_of (t_op s j) <> Some t) \/
  (t_op s' i = OAlloc r l /\ forall t, 0 <= t < l -> exists j, tag_of (t_op s j) = Some t).
Proof.
  intros R E H. destruct (treach_inv _ _ R). cbn [tstep] in H. rewrite E in H. injection H as <-.
  unfold try_alloc. destruct (alloc l s) as [t|] eqn:A.
  - left. exists t. cbn [t_op]. rewrite nset_same. apply alloc_some in A. destruct A as [A1 A2].
    split; [reflexivity|]. split; [exact A1|]. intros j H. apply i_act0 in H. destruct H. congruence.
  - right. cbn [t_op set_op]. rewrite nset_same. split; [reflexivity|]. intros t T. apply i_own0. eapply alloc_none; eauto.
Qed.
Lemma delivery rc s : treach rc s ->
  (forall t, arrived t (t_hist s) = delivered t (t_hist s) ++ t_queue s t) /\
  (forall i, got (t_op s i) = delivered_to i (t_hist s)) /\
  (forall i t, used_tag (t_op s i) = Some t -> Forall (fun x => tag (snd x) = t) (delivered_to i (t_hist s))).
Proof.
  intros R. destruct (treach_inv _ _ R). split; [auto|]. split; [auto|]. intros i t H. rewrite <- i_got0. auto.
Qed.

(** ** C20 *)
Definition tag_queue (s : tags) (o : op) : list (nat * tlp) := match tag_of o with Some t => t_queue s t | None => [] end.
Record tin (s : tags) : Prop := mkTin {
  n_base : tinv s;
  n_free : forall t, t_active s t = false -> t_queue s t = [];
  n_ans : forall i, answers i (t_hist s) = map snd (got (t_op s i)) ++ map snd (tag_queue s (t_op s i));
  n_orig : forall i, Forall (fun x => fst x = i) (got (t_op s i) ++ tag_queue s (t_op s i));
  n_end : forall i r, request_of (t_op s i) = Some r -> Forall (fun c => ends r c = false) (removelast (answers i (t_hist s)));
  n_recv : forall i r t acc, t_op s i = ORecv r t acc -> Forall (fun x => ends r (snd x) = false) acc }.
Lemma removelast_snoc {A} (l : list A) x : removelast (l ++ [x]) = l.
Proof. apply removelast_last. Qed.
Lemma set_tag_ends t r c : ends (set_tag t r) c = ends r c.
Proof. reflexivity. Qed.

Lemma tin_set_op i o s : tin s -> tinv (set_op i o s) -> tag_of o = tag_of (t_op s i) -> got o = got (t_op s i) ->
  (forall r, request_of o = Some r -> exists r', request_of (t_op s i) = Some r' /\ forall c, ends r c = ends r' c) \/ answers i (t_hist s) = [] ->
  got o = [] -> tin (set_op i o s).
Proof.
  intros [] I T G R N. constructor; cbn [t_op t_active t_hist t_queue set_op]; auto.
  - intros j. nset j i; [|apply n_ans0]. unfold tag_queue. rewrite T, G. apply n_ans0.
  - intros j. nset j i; [|apply n_orig0]. unfold tag_queue. rewrite T, G. apply n_orig0.
  - intros j r H. nset j i; [|eauto]. destruct R as [R|R]; [|rewrite R; constructor].
    destruct (R r H) as (r' & H' & Heq). eapply Forall_impl; [|apply (n_end0 i r' H')]. cbn. intros c. rewrite Heq. auto.
  - intros j r t acc H. nset j i; [|eauto]. subst o. cbn in N. subst acc. constructor.
Qed.
Lemma tin_try i r limit s : tin s -> limit <= 256 -> tag_of (t_op s i) = None -> got (t_op s i) = [] -> tin (try_alloc i r limit s).
Proof.
  intros I L T G. pose proof (inv_try i r limit s (n_base s I) L T G) as J. unfold try_alloc in *.
  assert (A0 : answers i (t_hist s) = []) by (rewrite (n_ans s I), G; unfold tag_queue; rewrite T; reflexivity).
  destruct (alloc limit s) as [tag|] eqn:E; [|apply tin_set_op; auto].
  apply alloc_some in E. destruct E as [E1 E2]. destruct I. constructor; cbn [t_op t_active t_hist t_queue] in *; auto.
  - intros t. fset t tag; [discriminate|auto].
  - intros j. nset j i; [|apply n_ans0]. rewrite A0. unfold tag_queue. cbn. rewrite n_free0; auto.
  - intros j. nset j i; [|apply n_orig0]. unfold tag_queue. cbn. rewrite n_free0; auto.
  - intros j r0 H. nset j i; [|eauto]. rewrite A0. constructor.
  - intros j r0 t acc H. nset j i; [discriminate|eauto].
Qed.
(** A completion is taken and ends the operation, or there is a timeout. *)
Lemma tin_done i r t acc s q x : tin s -> t_op s i = ORecv r t acc -> t_queue s t = x ++ q -> q = [] ->
  (x = [] \/ exists o c, x = [(o, c)]) ->
  let h := flat_map (fun y => [HTake i (fst y) (snd y)]) x in
  forall s', release_tag t (set_op i (ODone r t (acc ++ x))
      (mkTags (t_rc s) (t_ext s) (t_count s) (t_cur s) (t_active s) (fset t q (t_queue s)) (t_op s) (t_hist s ++ h))) = Ok s' -> tin s'.
Proof.
  intros I E Q Q0 X h s' H. pose proof I as []. destruct (done_inv i r t acc s q x n_base0 E) as (s1 & H1 & I1); [rewrite map_id; exact Q|exact X|].
  fold h in H1. rewrite H in H1. injection H1 as <-. unfold release_tag in H. cbn [t_active set_op] in H.
  destruct (t_active s t); [|discriminate]. injection H as <-.
  assert (Hh : forall j, answers j h = []) by (intros j; destruct X as [->|(o & c & ->)]; reflexivity).
  assert (Ti : tag_of (t_op s i) = Some t) by (rewrite E; reflexivity).
  assert (Tq : forall j, j <> i -> tag_queue (set_op i (ODone r t (acc ++ x))
      (mkTags (t_rc s) (t_ext s) (t_count s) (t_cur s) (fset t false (t_active s)) (fset t q (t_queue s)) (t_op s) (t_hist s ++ h))) (t_op s j) = tag_queue s (t_op s j)).
  { intros j N. unfold tag_queue. cbn [t_queue set_op]. destruct (tag_of (t_op s j)) as [u|] eqn:U; [|reflexivity].
    fset u t; [|reflexivity]. exfalso. apply N. eapply (i_uni s n_base0); eauto. }
  constructor; cbn [t_op t_active t_hist t_queue set_op]; auto.
  - intros u. fset u t; auto.
  - intros j. rewrite answers_app, Hh, app_nil_r. nset j i.
    + rewrite n_ans0, E. unfold tag_queue. cbn. rewrite Q, Q0, !app_nil_r, map_app. reflexivity.
    + rewrite n_ans0. rewrite <- Tq by assumption. reflexivity.
  - intros j. nset j i.
    + pose proof (n_orig0 i) as O. rewrite E in O. unfold tag_queue in *. cbn in *. rewrite Q, Q0, !app_nil_r in *. exact O.
    + pose proof (n_orig0 j) as O. rewrite <- Tq in O by assumption. exact O.
  - intros j r0 Hr. rewrite answers_app, Hh, app_nil_r. nset j i; [|eauto]. cbn in Hr. injection Hr as <-. apply (n_end0 i). rewrite E. reflexivity.
  - intros j r0 u a Ha. nset j i; [discriminate|eauto].
Qed.
Lemma ends_last r l c q : Forall (fun c => ends r c = false) (removelast (l ++ c :: q)) -> ends r c = true -> q = [].
Proof.
  destruct q as [|d q]; auto. intros F H. rewrite removelast_app in F by discriminate. apply Forall_app in F. destruct F as [_ F].
  change (removelast (c :: d :: q)) with (c :: removelast (d :: q)) in F. apply Forall_inv in F. congruence.
Qed.
Lemma tstep_in e s s' : tin s -> in_time e s -> tstep e s = Ok s' -> tin s'.
Proof.
  intros I K H. pose proof (tstep_tags _ _ _ H) as CT. destruct (tstep_inv e s (n_base s I) CT) as (s1 & H1 & I1).
  rewrite H in H1. injection H1 as <-.
  destruct e as [i r|i|i|i|o c|i|i|ext n]; cbn [tstep] in H.
  - destruct (t_op s i) eqn:E; injection H as <-; auto. apply tin_try; auto using tag_limit_le; rewrite E; reflexivity.
  - destruct (t_op s i) eqn:E; injection H as <-; auto. apply tin_try; auto; try (rewrite E; reflexivity). eapply (i_lim s (n_base s I)); eauto.
  - destruct (t_op s i) eqn:E; injection H as <-; auto. apply tin_set_op; auto; try (rewrite E; reflexivity).
    left. rewrite E. cbn. intros r0 H0. eauto.
  - destruct (t_op s i) eqn:E; injection H as <-; auto. apply tin_set_op; auto; try (rewrite E; reflexivity).
    left. rewrite E. cbn. intros r0 H0. eauto.
  - cbn in CT. replace ((0 <=? tag c) && (tag c <? 256)) with true in H by lia. apply Ok_inj in H. subst s'.
    destruct I. destruct K as (r & K & F).
    assert (To : tag_of (t_op s o) = Some (tag c)) by (destruct K as [K|[l K]]; rewrite K; reflexivity).
    assert (Ro : request_of (t_op s o) = Some r) by (destruct K as [K|[l K]]; rewrite K; reflexivity).
    set (s' := mkTags _ _ _ _ _ _ _ _).
    assert (Tq : forall i, tag_queue s' (t_op s i) = tag_queue s (t_op s i) ++ (if Nat.eqb o i then [(o, c)] else [])).
    { intros i. unfold tag_queue, s'. cbn [t_queue]. destruct (Nat.eqb_spec o i) as [<-|N].
      - rewrite To, fset_same. reflexivity.
      - destruct (tag_of (t_op s i)) as [u|] eqn:U; rewrite ?app_nil_r; [|reflexivity]. fset u (tag c); [|reflexivity].
        exfalso. apply N. eapply (i_uni s n_base0); eauto. }
    constructor; auto; unfold s'; cbn [t_op t_active t_hist].
    + intros t H. cbn [t_queue]. fset t (tag c); [|auto]. destruct (i_act s n_base0 o (tag c) To). congruence.
    + intros i. rewrite answers_app, n_ans0. fold s'. rewrite Tq, !map_app, <- app_assoc. do 2 f_equal. cbn.
      destruct (Nat.eqb o i); reflexivity.
    + intros i. fold s'. rewrite Tq, app_assoc. apply Forall_app. split; [auto|]. destruct (Nat.eqb_spec o i); auto.
    + intros i r0 Hr. rewrite answers_app. cbn. destruct (Nat.eqb_spec o i) as [->|N].
      * cbn. rewrite removelast_snoc. rewrite Ro in Hr. injection Hr as <-. exact F.
      * cbn. rewrite app_nil_r. eauto.
  - destruct (t_op s i) as [| | |r t acc| |] eqn:E; try (injection H as <-; auto; fail).
    destruct (t_queue s t) as [|[o c] q] eqn:Q; [injection H as <-; auto|]. destruct I.
    pose proof (n_end0 i r) as En. rewrite E in En. specialize (En eq_refl). rewrite n_ans0, E in En.
    unfold tag_queue in En. cbn [got tag_of] in En. rewrite Q in En. cbn [map snd] in En.
    destruct (ends r c) eqn:Ec.
    + assert (Q0 : q = []). { apply ends_last in En; [|exact Ec]. destruct q; [reflexivity|discriminate]. }
      subst q. apply (tin_done i r t acc s [] [(o, c)]) with (s' := s') in H; auto. constructor; auto. right. eauto.
    + apply Ok_inj in H. subst s'. assert (Ti : tag_of (t_op s i) = Some t) by (rewrite E; reflexivity).
      set (h := [HTake i o c]) in *.
      set (s' := set_op _ _ _).
      assert (Tq : forall j, j <> i -> tag_queue s' (t_op s j) = tag_queue s (t_op s j)).
      { intros j N. unfold tag_queue, s'. cbn [t_queue set_op]. destruct (tag_of (t_op s j)) as [u|] eqn:U; [|reflexivity].
        fset u t; [|reflexivity]. exfalso. apply N. eapply (i_uni s n_base0); eauto. }
      assert (Hh : forall j, answers j h = []) by reflexivity.
      constructor; auto; unfold s'; cbn [t_op t_active t_hist t_queue set_op]; fold s'.
      * intros u H. fset u t; [|auto]. destruct (i_act s n_base0 i t Ti). congruence.
      * intros j. rewrite answers_app, Hh, app_nil_r. nset j i; [|rewrite Tq by assumption; auto].
        rewrite n_ans0, E. unfold tag_queue, s'. cbn [got tag_of t_queue set_op]. rewrite Q, fset_same, map_app, <- app_assoc. reflexivity.
      * intros j. nset j i; [|rewrite Tq by assumption; auto].
        pose proof (n_orig0 i) as O. rewrite E in O. unfold tag_queue, s' in *. cbn [got tag_of t_queue set_op] in *. rewrite Q in O. rewrite fset_same, <- app_assoc. exact O.
      * intros j r0 Hr. rewrite answers_app, Hh, app_nil_r. nset j i; [|eauto]. cbn in Hr. injection Hr as <-. apply (n_end0 i). rewrite E. reflexivity.
      * intros j r0 u a Ha. nset j i; [|eauto]. injection Ha as <- <- <-. apply Forall_app. split; eauto.
  - destruct (t_op s i) as [| | |r t acc| |] eqn:E; try (injection H as <-; auto; fail).
    destruct (t_queue s t) as [|[o c] q] eqn:Q; [|injection H as <-; auto].
    pose proof (tin_done i r t acc s [] [] I E Q eq_refl (or_introl eq_refl)) as D. cbn [flat_map] in D. rewrite !app_nil_r in D.
    unfold release_tag in *. cbn [t_active set_op] in *. destruct (t_active s t) eqn:A; [|discriminate].
    specialize (D _ eq_refl). apply Ok_inj in H. subst s'. destruct D as [J0 J1 J2 J3 J4 J5]. cbn [t_op t_active t_hist t_queue set_op] in *.
    assert (Fq : forall u, fset t [] (t_queue s) u = t_queue s u) by (intros u; fset u t; auto).
    constructor; auto; cbn [t_op t_active t_hist t_queue set_op] in *.
    + intros u Hu. rewrite <- Fq. auto.
    + intros j. rewrite J2. do 2 f_equal. unfold tag_queue. destruct (tag_of _); auto. apply Fq.
    + intros j. specialize (J3 j). unfold tag_queue in *. cbn [t_queue] in *. destruct (tag_of _); auto. rewrite Fq in J3. exact J3.
  - apply Ok_inj in H. subst s'. destruct I. constructor; auto.
Qed.
Lemma tags_new_in rc : tin (tags_new rc).
Proof. constructor; try discriminate; cbn; auto using tags_new_inv. Qed.
Lemma trun_in es : forall s s', tin s -> along in_time es s -> trun es s = Ok s' -> tin s'.
Proof.
  induction es as [|e es IH]; intros s s' I K H; cbn [trun] in H; [injection H as <-; exact I|].
  destruct K as [K1 K2]. destruct (tstep e s) as [s1|] eqn:E; [|discriminate]. cbn [bind] in H.
  eapply IH; [|exact K2|exact H]. eapply tstep_in; eauto.
Qed.
Lemma collect_ends r c l : nonposted r (c :: l) = if ends r c then [c] else c :: nonposted r l.
Proof.
  unfold nonposted. cbn [collect]. unfold ends. destruct (negb (status c =? SC)); auto.
  destruct (is_mem_read r); auto. destruct (byte_count c <=? _); auto.
  cbn [orb]. destruct (fmt_type c) as [ty|]; auto. destruct ty; auto.
Qed.
Lemma nonposted_all r l : Forall (fun c => ends r c = false) (removelast l) -> nonposted r l = l.
Proof.
  induction l as [|c l IH]; intros F; [reflexivity|]. rewrite collect_ends. destruct l as [|d l].
  - destruct (ends r c); reflexivity.
  - change (removelast (c :: d :: l)) with (c :: removelast (d :: l)) in F. rewrite (Forall_inv F). f_equal. apply IH. exact (Forall_inv_tail F).
Qed.
Lemma nonposted_full r l c x : Forall (fun c => ends r c = false) l -> ends r c = true -> nonposted r ((l ++ [c]) ++ x) = l ++ [c].
Proof.
  induction l as [|d l IH]; intros F E; cbn [app]; rewrite collect_ends.
  - rewrite E. reflexivity.
  - rewrite (Forall_inv F). f_equal. apply IH; [exact (Forall_inv_tail F)|exact E].
Qed.
Lemma own_completions rc es s i : along in_time es (tags_new rc) -> trun es (tags_new rc) = Ok s ->
  Forall (fun x => fst x = i) (got (t_op s i)) /\
  (exists rest, answers i (t_hist s) = map snd (got (t_op s i)) ++ rest) /\
  forall r t acc, t_op s i = ODone r t acc -> map snd acc = answers i (t_hist s) /\ nonposted r (answers i (t_hist s)) = map snd acc.
Proof.
  intros K H. pose proof (trun_in _ _ _ (tags_new_in rc) K H) as I. destruct I.
  split; [|split].
  - pose proof (n_orig0 i) as O. apply Forall_app in O. apply O.
  - exists (map snd (tag_queue s (t_op s i))). auto.
  - intros r t acc E. pose proof (n_ans0 i) as A. rewrite E in A. cbn in A. rewrite app_nil_r in A. split; [auto|].
    rewrite <- A. apply nonposted_all. apply (n_end0 i). rewrite E. reflexivity.
Qed.

(** Without timeouts. *)
Definition tpat (s : tags) : Prop := tin s /\
  forall i r t acc, t_op s i = ODone r t acc -> exists l c, acc = l ++ [c] /\ Forall (fun x => ends r (snd x) = false) l /\ ends r (snd c) = true.
Lemma op_release t s s' : release_tag t s = Ok s' -> t_op s' = t_op s.
Proof. unfold release_tag. destruct (t_active s t); [|discriminate]. intros H. injection H as <-. reflexivity. Qed.
Lemma patient_in_time e s : tpat s -> patient e s -> in_time e s.
Proof.
  intros [I D] K. destruct e; try exact Logic.I. destruct K as (r & K1 & K2 & K3 & K4). exists r. split; [|exact K4].
  destruct (t_op s o) as [|r0 l|r0 t|r0 t l|r0 t l|r0 t] eqn:E; cbn in K1, K2; try discriminate;
    injection K1 as ->; injection K2 as ->; auto.
  - right. exists l. exact eq_refl.
  - exfalso. destruct (D o r (tag c) l E) as (l1 & x & -> & F & X). destruct I. rewrite n_ans0, E in K4. cbn [got tag_queue tag_of map] in K4. rewrite map_app in K4.
    cbn in K4. rewrite app_nil_r in K4. apply Forall_app in K4. destruct K4 as [_ K4]. apply Forall_inv in K4. congruence.
  - exfalso. exact (K3 r (tag c) eq_refl).
Qed.
Lemma tstep_pat e s s' : tpat s -> patient e s -> tstep e s = Ok s' -> tpat s'.
Proof.
  intros P K H. pose proof P as [I D]. split; [eapply tstep_in; eauto using patient_in_time|].
  assert (G : forall i o, t_op s' = nset i o (t_op s) -> (forall r t acc, o = ODone r t acc -> exists l c, acc = l ++ [c] /\ Forall (fun x => ends r (snd x) = false) l /\ ends r (snd c) = true) ->
    forall j r t acc, t_op s' j = ODone r t acc -> exists l c, acc = l ++ [c] /\ Forall (fun x => ends r (snd x) = false) l /\ ends r (snd c) = true).
  { intros i o Eo Ho j r t acc. rewrite Eo. nset j i; eauto. }
  destruct e as [i r|i|i|i|o c|i|i|ext n]; cbn [tstep] in H.
  - destruct (t_op s i) eqn:E; apply Ok_inj in H; subst s'; auto.
    unfold try_alloc in G |- *. destruct (alloc _ _); (eapply G; [reflexivity|discriminate]).
  - destruct (t_op s i) eqn:E; apply Ok_inj in H; subst s'; auto.
    unfold try_alloc in G |- *. destruct (alloc _ _); (eapply G; [reflexivity|discriminate]).
  - destruct (t_op s i) eqn:E; apply Ok_inj in H; subst s'; auto. eapply G; [reflexivity|discriminate].
  - destruct (t_op s i) eqn:E; apply Ok_inj in H; subst s'; auto. eapply G; [reflexivity|discriminate].
  - destruct ((0 <=? tag c) && (tag c <? 256)); [|discriminate]. apply Ok_inj in H. subst s'. auto.
  - destruct (t_op s i) as [| | |r t acc| |] eqn:E; try (apply Ok_inj in H; subst s'; auto; fail).
    destruct (t_queue s t) as [|[o c] q] eqn:Q; [apply Ok_inj in H; subst s'; auto|].
    destruct (ends r c) eqn:Ec.
    + apply op_release in H. eapply G; [rewrite H; reflexivity|]. intros r0 t0 acc0 H0. injection H0 as <- <- <-.
      exists acc, (o, c). split; [reflexivity|]. split; [|exact Ec]. eapply n_recv; eauto.
    + apply Ok_inj in H. subst s'. eapply G; [reflexivity|discriminate].
  - destruct K.
  - apply Ok_inj in H. subst s'. auto.
Qed.
Lemma trun_pat es : forall s s', tpat s -> along patient es s -> trun es s = Ok s' -> tpat s'.
Proof.
  induction es as [|e es IH]; intros s s' I K H; cbn [trun] in H; [injection H as <-; exact I|].
  destruct K as [K1 K2]. destruct (tstep e s) as [s1|] eqn:E; [|discriminate]. cbn [bind] in H.
  eapply IH; [|exact K2|exact H]. eapply tstep_pat; eauto.
Qed.
Lemma patient_completions rc es s i : along patient es (tags_new rc) -> trun es (tags_new rc) = Ok s ->
  Forall (fun x => fst x = i) (got (t_op s i)) /\
  forall r t acc, t_op s i = ODone r t acc -> map snd acc = answers i (t_hist s) /\
    forall rest, nonposted r (answers i (t_hist s) ++ rest) = map snd acc.
Proof.
  intros K H. assert (P : tpat (tags_new rc)) by (split; [apply tags_new_in|discriminate]).
  pose proof (trun_pat _ _ _ P K H) as [I D]. destruct I. split.
  - pose proof (n_orig0 i) as O. apply Forall_app in O. apply O.
  - intros r t acc E. pose proof (n_ans0 i) as A. rewrite E in A. cbn in A. rewrite app_nil_r in A. split; [auto|].
    intros rest. rewrite A. destruct (D i r t acc E) as (l & c & -> & F & Ec). rewrite map_app. cbn [map].
    apply nonposted_full; [|exact Ec]. apply Forall_map. exact F.
Qed.

(** A failed operation stays that way. *)
Lemma failed_stays es i r t : forall s s', t_op s i = OFailed r t -> trun es s = Ok s' -> t_op s' i = OFailed r t.
Proof.
  induction es as [|e es IH]; intros s s' E H; cbn [trun] in H; [injection H as <-; exact E|].
  destruct (tstep e s) as [s1|] eqn:St; [|discriminate]. cbn [bind] in H. eapply IH; [|exact H]. clear - St E.
  assert (G : forall j o, t_op s1 = nset j o (t_op s) -> j <> i -> t_op s1 i = OFailed r t).
  { intros j o Eo N. rewrite Eo, nset_other; auto. }
  assert (N : forall j, t_op s j <> OFailed r t -> j <> i) by (intros j H ->; auto).
  destruct e as [j q|j|j|j|o c|j|j|ext n]; cbn [tstep] in St.
  - destruct (t_op s j) eqn:Ej; apply Ok_inj in St; subst s1; auto.
    unfold try_alloc in G |- *. destruct (alloc _ _); (eapply G; [reflexivity|apply N; rewrite Ej; discriminate]).
  - destruct (t_op s j) eqn:Ej; apply Ok_inj in St; subst s1; auto.
    unfold try_alloc in G |- *. destruct (alloc _ _); (eapply G; [reflexivity|apply N; rewrite Ej; discriminate]).
  - destruct (t_op s j) eqn:Ej; apply Ok_inj in St; subst s1; auto. eapply G; [reflexivity|apply N; rewrite Ej; discriminate].
  - destruct (t_op s j) eqn:Ej; apply Ok_inj in St; subst s1; auto. eapply G; [reflexivity|apply N; rewrite Ej; discriminate].
  - destruct ((0 <=? tag c) && (tag c <? 256)); [|discriminate]. apply Ok_inj in St. subst s1. auto.
  - destruct (t_op s j) as [| | |r0 t0 acc| |] eqn:Ej; try (apply Ok_inj in St; subst s1; auto; fail).
    destruct (t_queue s t0) as [|[o c] q]; [apply Ok_inj in St; subst s1; auto|].
    destruct (ends r0 c).
    + apply op_release in St. eapply G; [rewrite St; reflexivity|apply N; rewrite Ej; discriminate].
    + apply Ok_inj in St. subst s1. eapply G; [reflexivity|apply N; rewrite Ej; discriminate].
  - destruct (t_op s j) as [| | |r0 t0 acc| |] eqn:Ej; try (apply Ok_inj in St; subst s1; auto; fail).
    destruct (t_queue s t0) as [|[o c] q]; [|apply Ok_inj in St; subst s1; auto].
    apply op_release in St. eapply G; [rewrite St; reflexivity|apply N; rewrite Ej; discriminate].
  - apply Ok_inj in St. subst s1. auto.
Qed.
Lemma trun_app a b s : trun (a ++ b) s = bind (trun a s) (trun b).
Proof. revert s. induction a as [|e a IH]; intros s; [reflexivity|]. cbn [app trun]. destruct (tstep e s); cbn [bind]; auto. Qed.
