(** Enumeration: what the scan of a tree leaves. *)
From Verif Require Import Base ModelUtils ModelChan ModelEnum SpecEnum ProofsEnum.
Require Import Sorting.Sorted.

Lemma mps_walk_shape m root l : forall x x' l', mps_walk m root x l = (x', l') ->
  like x x' /\ Forall2 (fun z z' => exists v, z' = set_fn (put_mps v) z) l l'.
Proof.
  induction l as [|z r IH]; intros x x' l'; cbn [mps_walk].
  - intros E. injection E as <- <-. split; [apply like_refl|constructor].
  - destruct (mps_step _ _ _ _ _ _) as [a b]. destruct (mps_walk m root (put_mps a x) r) as [x1 r1] eqn:E1.
    intros E. injection E as <- <-. destruct (IH _ _ _ E1) as (A & B). split.
    + apply like_trans with (put_mps a x); [exists a; reflexivity|exact A].
    + constructor; [exists b; reflexivity|exact B].
Qed.
Lemma done_fn m root n y y' ds last : bus_done m root n y y' ds last -> like (hw_fn y) (hw_fn y').
Proof. intros H. inversion H; subst. cbn. apply (mps_walk_shape _ _ _ _ _ _ H0). Qed.

(** ** Everything else is as before *)
Lemma forget_set g z : put_mps 0 (put_buses 0 0 0 (g (hw_fn z))) = put_mps 0 (put_buses 0 0 0 (hw_fn z)) -> forget (set_fn g z) = forget z.
Proof. destruct z as [x l]. cbn. intros ->. reflexivity. Qed.
Lemma done_forget m :
  (forall root n y y' ds last, bus_done m root n y y' ds last -> forget y' = forget y) /\
  (forall n k l l' ds last, kids_done m n k l l' ds last -> map forget l' = map forget l).
Proof.
  apply done_ind; intros.
  - destruct (mps_walk_shape _ _ _ _ _ _ H) as ((v & ->) & B). cbn. f_equal. rewrite H1.
    clear -B. induction B as [|z z' r r' (w & ->) _ IH]; cbn; [reflexivity|]. rewrite IH, forget_set; reflexivity.
  - reflexivity.
  - cbn. rewrite H2. reflexivity.
  - cbn. rewrite H3, forget_set by reflexivity. rewrite H1, forget_set; reflexivity.
Qed.

(** ** What the host has *)
Lemma done_view m :
  (forall root n y y' ds last, bus_done m root n y y' ds last -> ds = map (view n) (hw_below y')) /\
  (forall n k l l' ds last, kids_done m n k l l' ds last -> ds = map (view n) l').
Proof.
  apply done_ind; intros; cbn [hw_below map].
  - exact H1.
  - reflexivity.
  - rewrite <- H2. destruct z as [x lz]. cbn in *. rewrite H. reflexivity.
  - rewrite <- H3. f_equal. pose proof (done_fn _ _ _ _ _ _ _ H0) as (v & Ev).
    destruct z as [x lz], z' as [x' lz']. cbn in Ev. subst x'. cbn in *. unfold is_bridge in *. cbn in *. rewrite H, <- H1. reflexivity.
Qed.

(** ** Bus numbers *)
Lemma interval_nil a b : b < a -> interval a b = [].
Proof. intros H. unfold interval, zrange. replace (Z.to_nat (b - a + 1)) with O by lia. reflexivity. Qed.
Lemma interval_app a b c : a <= b + 1 -> b <= c -> interval a c = interval a b ++ interval (b + 1) c.
Proof.
  intros H H'. unfold interval, zrange. rewrite !map_map.
  replace (Z.to_nat (c - a + 1)) with (Z.to_nat (b - a + 1) + Z.to_nat (c - (b + 1) + 1))%nat by lia.
  rewrite List.seq_app, map_app. f_equal. cbn [Nat.add].
  generalize (Z.to_nat (c - (b + 1) + 1)). intros k.
  assert (G : forall s t k, a + Z.of_nat s = b + 1 + Z.of_nat t -> map (fun x => a + Z.of_nat x) (List.seq s k) = map (fun x => b + 1 + Z.of_nat x) (List.seq t k)).
  { clear. intros s t k. revert s t. induction k as [|k IH]; intros s t E; cbn; [reflexivity|]. f_equal; [exact E|]. apply IH. lia. }
  apply G. lia.
Qed.
Lemma interval_one a : interval a a = [a].
Proof. unfold interval. replace (a - a + 1) with 1 by lia. change (zrange 1) with [0]. cbn [map]. rewrite Z.add_0_r. reflexivity. Qed.
Lemma interval_cons a b : a <= b -> interval a b = a :: interval (a + 1) b.
Proof. intros H. rewrite (interval_app a a b) by lia. rewrite interval_one. reflexivity. Qed.
Lemma in_interval a b k : In k (interval a b) <-> a <= k <= b.
Proof.
  unfold interval, zrange. rewrite map_map, in_map_iff. split.
  - intros (i & <- & H). apply in_seq in H. lia.
  - intros H. exists (Z.to_nat (k - a)). split; [lia|]. apply in_seq. lia.
Qed.
Lemma nodup_interval a b : NoDup (interval a b).
Proof.
  unfold interval, zrange. rewrite map_map. generalize (seq_NoDup (Z.to_nat (b - a + 1)) 0). generalize (List.seq 0 (Z.to_nat (b - a + 1))).
  induction 1 as [|i l N _ IH]; cbn; constructor; [|exact IH]. rewrite in_map_iff. intros (j & E & J). assert (j = i) by lia. congruence.
Qed.

(** A bridge after the scan *)
Definition ranged (y : hw) : Prop :=
  if is_bridge (hw_fn y) then flat_map buses (hw_below y) = interval (h_sec (hw_fn y) + 1) (h_sub (hw_fn y)) /\ ordered (h_sec (hw_fn y)) (hw_below y)
  else hw_below y = [].
Lemma ranged_buses y : ranged y -> is_bridge (hw_fn y) = true -> h_sec (hw_fn y) <= h_sub (hw_fn y) -> buses y = interval (h_sec (hw_fn y)) (h_sub (hw_fn y)).
Proof.
  destruct y as [x l]. unfold ranged. cbn. intros H E L. rewrite E in *. destruct H as (-> & _). cbn. symmetry. apply interval_cons. exact L.
Qed.
Lemma done_ranged m :
  (forall root n y y' ds last, bus_done m root n y y' ds last ->
     n <= last /\ flat_map buses (hw_below y') = interval (n + 1) last /\ ordered n (hw_below y') /\ Forall (hw_all ranged) (hw_below y')) /\
  (forall n k l l' ds last, kids_done m n k l l' ds last -> n <= k ->
     k <= last /\ flat_map buses l' = interval (k + 1) last /\ ordered n l' /\ Forall (hw_all ranged) l' /\
     Forall (fun z => is_bridge (hw_fn z) = true -> k < h_sec (hw_fn z)) l').
Proof.
  apply done_ind; intros; cbn [hw_below].
  - specialize (H1 ltac:(lia)). tauto.
  - split; [lia|]. split; [cbn; rewrite interval_nil by lia; reflexivity|]. split; [split; constructor|]. split; constructor.
  - destruct (H2 H3) as (A & B & (D1 & D2) & E & G). split; [exact A|]. destruct z as [x lz]. cbn [hw_fn hw_below] in *. subst lz.
    split; [cbn; rewrite H; exact B|]. split; [split|split].
    + constructor; [|exact D1]. apply Forall_forall. intros w _ X. cbn in X. congruence.
    + constructor; [cbn; congruence|exact D2].
    + constructor; [|exact E]. apply hw_all_eq. split; [unfold ranged; cbn; rewrite H; reflexivity|constructor].
    + constructor; [cbn; congruence|exact G].
  - destruct H1 as (A1 & B1 & D1 & E1). destruct (H3 ltac:(lia)) as (A & B & (D2 & D3) & E & G).
    pose proof (done_fn _ _ _ _ _ _ _ H0) as (v & Ev).
    destruct z as [x lz], z' as [x' lz']. cbn [hw_fn hw_below set_fn] in *. subst x'.
    change (is_bridge (put_mps v (put_buses n (last + 1) 255 x))) with (is_bridge x) in *.
    assert (Br : is_bridge (put_buses n (last + 1) last1 (put_mps v (put_buses n (last + 1) 255 x))) = true) by exact H.
    split; [lia|]. split.
    { cbn [flat_map buses]. rewrite Br, B1, B. cbn [h_sec put_buses app].
      rewrite (interval_app (last + 1) last1 last') by lia. rewrite (interval_cons (last + 1) last1) by lia. reflexivity. }
    split; [split|split].
    + constructor; [|exact D2]. revert G. apply Forall_impl. cbn. auto.
    + constructor; [cbn; intros _; lia|exact D3].
    + constructor; [|exact E]. apply hw_all_eq. split; [|exact E1]. unfold ranged. cbn [hw_fn hw_below]. rewrite Br. cbn. auto.
    + constructor; [cbn; intros _; lia|]. revert G. apply Forall_impl. intros; lia.
Qed.

(** ** Numbers of functions *)
Definition keyed (y : hw) : Prop :=
  StronglySorted (fun a b => key a < key b) (hw_below y) /\ Forall (fun z => 0 <= h_f (hw_fn z) < 8) (hw_below y).
Lemma forget_key z z' : forget z = forget z' -> key z = key z' /\ h_d (hw_fn z) = h_d (hw_fn z') /\ h_f (hw_fn z) = h_f (hw_fn z').
Proof. destruct z as [x l], z' as [x' l']. unfold key. cbn [hw_fn]. intros E. cbn in E. injection E as E1 E2 _ _ _ _ _ _ _. rewrite E1, E2. auto. Qed.
Lemma keyed_forget y : forall y', forget y' = forget y -> hw_all keyed y -> hw_all keyed y'.
Proof.
  induction y as [x l IH] using hw_rect'. intros [x' l'] E. cbn in E. injection E as _ _ _ _ _ _ _ _ El.
  rewrite !hw_all_eq. intros ((K1 & K2) & K3). cbn [hw_below] in *.
  assert (S2 : Forall2 (fun z' z => forget z' = forget z) l' l).
  { clear -El. revert l' El. induction l as [|z l IH]; intros [|z' l'] E; try discriminate; constructor; injection E; auto. }
  clear El. split; [split; cbn [hw_below]|].
  - clear -S2 K1. induction S2 as [|z' z r' r E S2 IH]; [constructor|]. inversion K1 as [|? ? A B]; subst. constructor; [auto|].
    apply forget_key in E. clear -S2 B E. induction S2 as [|w' w r' r Ew _ IH]; inversion B; subst; constructor; [|auto].
    apply forget_key in Ew. lia.
  - clear -S2 K2. induction S2 as [|z' z r' r E _ IH]; inversion K2; subst; constructor; auto. apply forget_key in E. lia.
  - clear -S2 IH K3. induction S2 as [|z' z r' r E _ IHS]; inversion K3; inversion IH; subst; constructor; auto.
Qed.

(** ** Finding functions *)
Lemma claims_spec b z : claims_bus b z = true <-> is_bridge (hw_fn z) = true /\ h_sec (hw_fn z) <= b <= h_sub (hw_fn z).
Proof. unfold claims_bus. rewrite !andb_true_iff, !Z.leb_le. tauto. Qed.
Lemma split_in {A} (z : A) l : In z l -> exists pre post, l = pre ++ z :: post.
Proof. apply in_split. Qed.
Lemma ordpairs_app {A} (R : A -> A -> Prop) a z b : ForallOrdPairs R (a ++ z :: b) -> Forall (fun w => R w z) a.
Proof.
  induction a as [|u a IH]; intros H; [constructor|]. cbn in H. inversion H as [|? ? H1 H2]; subst. constructor; [|apply IH; exact H2].
  rewrite Forall_forall in H1. apply H1, in_or_app. right. left. reflexivity.
Qed.
Lemma functions_bus y : hw_all ranged y -> h_sec (hw_fn y) <= h_sub (hw_fn y) -> is_bridge (hw_fn y) = true -> forall b x, In (b, x) (below_functions y) -> In b (buses y).
Proof.
  induction y as [x0 l IH] using hw_rect'. intros R L Br b x. apply hw_all_eq in R. destruct R as (R & Rl).
  unfold ranged in R. cbn [hw_fn hw_below] in *. rewrite Br in R. destruct R as (_ & _ & Or).
  unfold below_functions. cbn [hw_below hw_fn]. rewrite in_flat_map. intros (z & Hz & Hx). cbn. rewrite Br.
  destruct z as [xz lz] eqn:Ez. cbn in Hx. destruct Hx as [E|Hx]; [injection E as <- _; left; reflexivity|].
  rewrite Forall_forall in IH, Rl, Or. right. apply in_flat_map. exists z. subst z. split; [exact Hz|].
  specialize (Rl _ Hz). specialize (Or _ Hz).
  destruct (is_bridge xz) eqn:Bz.
  - apply (IH _ Hz) with x; [exact Rl|cbn in Or |- *; specialize (Or Bz); lia|exact Bz|exact Hx].
  - apply hw_all_eq in Rl. destruct Rl as (Rl & _). unfold ranged in Rl. cbn in Rl. rewrite Bz in Rl. subst lz. destruct Hx.
Qed.
(** Inside the ranges an access reaches the function with that number *)
Lemma get_functions y : hw_all ranged y \/ (Forall (hw_all ranged) (hw_below y) /\ ordered (h_sec (hw_fn y)) (hw_below y)) -> hw_all keyed y ->
  forall b x, In (b, x) (below_functions y) -> hw_get b (h_d x) (h_f x) y = Some x.
Proof.
  induction y as [x0 l IH] using hw_rect'. intros R K b x Hx.
  assert (R' : l = [] \/ Forall (hw_all ranged) l /\ ordered (h_sec x0) l).
  { destruct R as [R|R]; [|right; exact R]. apply hw_all_eq in R. destruct R as (R & Rl). unfold ranged in R. cbn in R.
    destruct (is_bridge x0); [right; tauto|left; exact R]. }
  destruct R' as [->|(Rl & Or1 & Or2)]; [destruct Hx|]. clear R.
  unfold below_functions in Hx. cbn [hw_below hw_fn] in Hx. apply in_flat_map in Hx. destruct Hx as (z & Hz & Hx).
  destruct (split_in z l Hz) as (pre & post & ->).
  apply hw_all_eq in K. destruct K as ((K1 & K2) & K3). cbn [hw_below] in K1, K2.
  destruct (sorted_app _ _ K1) as (_ & _ & K1').
  destruct z as [xz lz] eqn:Ez. cbn in Hx. destruct Hx as [E|Hx].
  - injection E as <- <-. rewrite get_here by reflexivity. rewrite find_clear.
    + cbn [find]. rewrite (proj2 (is_at_true _ _ (Hw xz lz))) by auto. reflexivity.
    + apply Forall_forall. intros w Iw. apply not_at. specialize (K1' w (Hw xz lz) Iw (or_introl eq_refl)). unfold key in K1'. cbn [hw_fn] in K1'.
      rewrite Forall_forall in K2. pose proof (K2 w (in_or_app _ _ _ (or_introl Iw))). pose proof (K2 _ Hz) as K2z. cbn [hw_fn] in K2z. lia.
  - rewrite Forall_forall in IH, Rl, Or2, K3. pose proof (Rl _ Hz) as Rz. pose proof (Or2 _ Hz) as Oz. cbn [hw_fn] in Oz.
    destruct (is_bridge xz) eqn:Bz.
    2:{ apply hw_all_eq in Rz. destruct Rz as (Rz & _). unfold ranged in Rz. cbn in Rz. rewrite Bz in Rz. subst lz. destruct Hx. }
    specialize (Oz eq_refl).
    assert (Ib : h_sec xz <= b <= h_sub xz).
    { pose proof (functions_bus (Hw xz lz) Rz ltac:(cbn; lia) Bz b x Hx) as I.
      rewrite ranged_buses in I; [apply in_interval in I; exact I|apply hw_all_eq in Rz; tauto|exact Bz|cbn; lia]. }
    rewrite get_down.
    + apply (IH _ Hz); [left; exact Rz|apply (K3 _ Hz)|exact Hx].
    + lia.
    + apply ordpairs_app in Or1. rewrite Forall_forall in Or1. apply Forall_forall. intros w Iw. specialize (Or1 w Iw).
      destruct (claims_bus b w) eqn:Cw; [|reflexivity]. apply claims_spec in Cw. destruct Cw as (Bw & Cw). specialize (Or1 Bw Bz). cbn in Or1. lia.
    + apply claims_spec. auto.
Qed.
(** ... and nothing else *)
Lemma get_in y : forall b d f x, hw_get b d f y = Some x -> In (b, x) (below_functions y) /\ h_d x = d /\ h_f x = f.
Proof.
  induction y as [x0 l IH] using hw_rect'. intros b d f x. unfold below_functions. cbn [hw_below hw_fn].
  destruct (Z.eq_dec b (h_sec x0)) as [->|N].
  - rewrite get_here by reflexivity. destruct (find (is_at d f) l) as [z|] eqn:E; [|discriminate].
    cbn. intros X. injection X as <-. apply find_some in E. destruct E as (I & A). apply is_at_true in A. split; [|exact A].
    apply in_flat_map. exists z. split; [exact I|]. destruct z. left. reflexivity.
  - cbn. replace (b =? h_sec x0) with false by lia. induction l as [|z r IHl]; [discriminate|].
    inversion IH as [|? ? Hz Hr]; subst. destruct (claims_bus b z).
    + intros X. destruct (Hz _ _ _ _ X) as (I & A). split; [|exact A]. cbn. apply in_or_app. left. destruct z as [xz lz]. right. exact I.
    + intros X. destruct (IHl Hr X) as (I & A). split; [|exact A]. cbn. apply in_or_app. right. exact I.
Qed.

(** ** No number is given twice *)
Lemma nodup_app {A} (a b : list A) : NoDup a -> NoDup b -> (forall u, In u a -> In u b -> False) -> NoDup (a ++ b).
Proof.
  induction 1 as [|u a N _ IH]; intros B D; [exact B|]. cbn. constructor.
  - rewrite in_app_iff. intros [I|I]; [auto|]. apply (D u); [left; reflexivity|exact I].
  - apply IH; [exact B|]. intros w W1 W2. apply (D w); [right; exact W1|exact W2].
Qed.
Lemma nodup_functions y : (hw_all ranged y \/ (Forall (hw_all ranged) (hw_below y) /\ ordered (h_sec (hw_fn y)) (hw_below y))) -> hw_all keyed y ->
  NoDup (map number (below_functions y)).
Proof.
  induction y as [x0 l IH] using hw_rect'. intros R K.
  assert (R' : l = [] \/ Forall (hw_all ranged) l /\ ordered (h_sec x0) l).
  { destruct R as [R|R]; [|right; exact R]. apply hw_all_eq in R. destruct R as (R & Rl). unfold ranged in R. cbn in R.
    destruct (is_bridge x0); [right; tauto|left; exact R]. }
  destruct R' as [->|(Rl & Or1 & Or2)]; [constructor|]. clear R.
  apply hw_all_eq in K. destruct K as ((K1 & K2) & K3). cbn [hw_below] in K1, K2.
  unfold below_functions. cbn [hw_below hw_fn]. set (n := h_sec x0) in *.
  assert (IN : forall z u, In z l -> hw_all ranged z -> In u (map number (below_functions z)) -> is_bridge (hw_fn z) = true /\ h_sec (hw_fn z) <= bus u <= h_sub (hw_fn z) /\ n < bus u).
  { intros z u Hz Rz Hu. apply in_map_iff in Hu. destruct Hu as ((b & x) & <- & Hx). cbn [number fst bus]. rewrite Forall_forall in Or2. specialize (Or2 z Hz).
    destruct (is_bridge (hw_fn z)) eqn:Bz.
    - specialize (Or2 eq_refl). pose proof (functions_bus z Rz ltac:(lia) Bz b x Hx) as I.
      rewrite ranged_buses in I; [apply in_interval in I; split; [reflexivity|lia]|destruct z; apply hw_all_eq in Rz; tauto|exact Bz|lia].
    - destruct z as [xz lz]. apply hw_all_eq in Rz. destruct Rz as (Rz & _). unfold ranged in Rz. cbn in Rz, Bz. rewrite Bz in Rz. subst lz. destruct Hx. }
  clear Or2. induction l as [|z r IHl]; [constructor|].
  inversion IH as [|? ? Iz Ir]; inversion Rl as [|? ? Rz Rr]; inversion K1 as [|? ? K1a K1b]; inversion K2 as [|? ? K2a K2b];
    inversion K3 as [|? ? K3a K3b]; inversion Or1 as [|? ? Oz Or]; subst.
  cbn [flat_map]. rewrite map_app.
  assert (Ez : functions n z = (n, hw_fn z) :: below_functions z) by (destruct z; reflexivity).
  rewrite Ez. cbn [map].
  assert (OUT : forall u, In u (map number (flat_map (functions n) r)) ->
     (exists w, In w r /\ u = number (n, hw_fn w)) \/ (exists w, In w r /\ In u (map number (below_functions w)))).
  { intros u Hu. apply in_map_iff in Hu. destruct Hu as (e & <- & He). apply in_flat_map in He. destruct He as (w & Iw & He).
    destruct w as [xw lw]. cbn in He. destruct He as [<-|He]; [left|right]; exists (Hw xw lw); split; auto. apply in_map. exact He. }
  assert (IN' : forall w u, In w r -> In u (map number (below_functions w)) -> is_bridge (hw_fn w) = true /\ h_sec (hw_fn w) <= bus u <= h_sub (hw_fn w) /\ n < bus u).
  { intros w u Iw Hu. apply IN; [right; exact Iw| |exact Hu]. rewrite Forall_forall in Rr. auto. }
  apply nodup_app.
  - constructor; [|apply Iz; [left; exact Rz|exact K3a]].
    intros X. apply IN in X; [|left; reflexivity|exact Rz]. cbn in X. lia.
  - apply IHl; auto with datatypes.
  - intros u [<-|Hu] Hv; apply OUT in Hv.
    + destruct Hv as [(w & Iw & E)|(w & Iw & E)].
      * unfold number in E. cbn in E. injection E as E1 E2. rewrite Forall_forall in K1b. specialize (K1b w Iw). unfold key in K1b. lia.
      * apply IN' in E; [|exact Iw]. cbn in E. lia.
    + apply IN in Hu; [|left; reflexivity|exact Rz]. destruct Hu as (Bz & Hu & Hu').
      destruct Hv as [(w & Iw & ->)|(w & Iw & E)]; [cbn in Hu'; lia|].
      apply IN' in E; [|exact Iw]. destruct E as (Bw & E & _). rewrite Forall_forall in Oz. specialize (Oz w Iw Bz Bw). lia.
Qed.

(** ** The whole system *)
Lemma good_keyed y : hw_all good_node y -> hw_all keyed y.
Proof.
  induction y as [x l IH] using hw_rect'. rewrite !hw_all_eq. intros ((_ & So & Gf & _) & Gl). split.
  - split; [exact So|]. revert Gf. apply Forall_impl. unfold good_fn. tauto.
  - rewrite Forall_forall in *. auto.
Qed.
Lemma scan_system m h : good_system m h ->
  if bridges h <=? 256 then exists h' ds, scan_root m h = Ok (h', PBus 0 0 (bridges h - 1) ds) /\ bus_done m true 0 h h' ds (bridges h - 1)
  else scan_root m h = Err ValueError.
Proof.
  intros (Ty & Ee & Em & Es & Eu & Hm & Gn & Gr). destruct h as [x l]. cbn [hw_fn hw_below] in *.
  assert (Br : is_bridge x = true) by (unfold is_bridge; rewrite Ty; reflexivity).
  apply hw_all_eq in Gn. destruct Gn as ((_ & Gb) & Gl). cbn [hw_fn hw_below] in Gb.
  pose proof (scan_tree m Hm (Hw x l) x (fun y => y) 0 None 257%nat) as ST. cbn [hw_below] in ST.
  rewrite bridges_eq, Br. unfold scan_root.
  replace (1 + sum_bridges l <=? 256) with (0 + sum_bridges l <=? 255) by lia.
  specialize (ST focus_root (conj Br (conj Es Eu)) Logic.I).
  assert (Gx : mps_good x) by (split; [exact Em|rewrite Ee; exact Logic.I]).
  specialize (ST Gx ltac:(lia) ltac:(lia) Gb).
  assert (Gk : Forall good_kid l).
  { rewrite Forall_forall in *. intros z Hz. split; [apply Gl; exact Hz|apply (Gr z Hz)]. }
  assert (Mo : Forall (fun z => mps_ok m (is_root None) (hw_fn z)) l).
  { destruct Gb as (_ & Gf & _). rewrite Forall_forall in *. intros z Hz. specialize (Gf z Hz). specialize (Gr z Hz). unfold good_fn in Gf.
    split; [split; tauto|cbn; tauto]. }
  specialize (ST Gk Mo).
  assert (Hd : 0 = 0 -> Forall (fun z => 1 <= h_d (hw_fn z)) l).
  { intros _. revert Gr. apply Forall_impl. tauto. }
  specialize (ST Hd). clear -ST.
  destruct (0 + sum_bridges l <=? 255).
  - destruct ST as (h' & ds & last & E & D). pose proof (proj1 (done_count m) _ _ _ _ _ _ D) as Cn. cbn [hw_below] in Cn.
    exists h', ds. rewrite E. cbn [bind]. replace (1 + sum_bridges l - 1) with last by lia. split; [reflexivity|exact D].
  - rewrite ST. reflexivity.
Qed.

Lemma enumerated m h : good_system m h -> bridges h <= 256 ->
  exists h', scan_root m h = Ok (h', PBus 0 0 (bridges h - 1) (map (view 0) (hw_below h'))) /\
    forget h' = forget h /\ like (hw_fn h) (hw_fn h') /\ buses h' = interval 0 (bridges h - 1) /\ ordered 0 (hw_below h') /\
    Forall (hw_all ranged) (hw_below h') /\ hw_all keyed h' /\ bus_done m true 0 h h' (map (view 0) (hw_below h')) (bridges h - 1).
Proof.
  intros G L. pose proof (scan_system m h G) as SS. replace (bridges h <=? 256) with true in SS by lia.
  destruct SS as (h' & ds & E & D). pose proof (proj1 (done_view m) _ _ _ _ _ _ D) as V. subst ds.
  exists h'. split; [exact E|]. pose proof (proj1 (done_forget m) _ _ _ _ _ _ D) as Fo. split; [exact Fo|].
  pose proof (done_fn _ _ _ _ _ _ _ D) as Li. split; [exact Li|].
  destruct (proj1 (done_ranged m) _ _ _ _ _ _ D) as (A & B & O & R).
  destruct G as (Ty & Ee & Em & Es & Eu & Hm & Gn & Gr).
  split; [|split; [exact O|split; [exact R|split; [|exact D]]]].
  - rewrite (interval_cons 0) by lia. destruct h' as [x' l'], h as [x l]. destruct Li as (v & Ev). cbn [hw_fn hw_below buses] in *. subst x'.
    rewrite B. unfold is_bridge. cbn [h_type put_mps h_sec]. rewrite Ty, Es. reflexivity.
  - apply keyed_forget with h; [exact Fo|]. apply good_keyed. exact Gn.
Qed.
