(** Enumeration: payload sizes. *)
From Verif Require Import Base ModelUtils ModelTlp ModelAttrs ModelConfig ModelFunction ModelRoute ModelChan ModelEnum SpecEnum ProofsEnum ProofsEnumFacts.
Require Import Sorting.Sorted.

Lemma all_fns_eq P x l : all_fns P (Hw x l) <-> P x /\ Forall (all_fns P) l.
Proof. unfold all_fns. rewrite hw_all_eq. reflexivity. Qed.
Lemma all_fns_impl (P Q : hfn -> Prop) : (forall x, P x -> Q x) -> forall y, all_fns P y -> all_fns Q y.
Proof.
  intros H. induction y as [x l IH] using hw_rect'. rewrite !all_fns_eq. intros (A & B). split; [auto|]. rewrite Forall_forall in *. auto.
Qed.
Lemma all_fns_and (P Q : hfn -> Prop) y : all_fns P y -> all_fns Q y -> all_fns (fun x => P x /\ Q x) y.
Proof.
  induction y as [x l IH] using hw_rect'. rewrite !all_fns_eq. intros (A & B) (A' & B'). split; [auto|]. rewrite Forall_forall in *. auto.
Qed.
Definition blind (P : hfn -> Prop) : Prop := forall x, P x <-> P (put_mps 0 (put_buses 0 0 0 x)).
Lemma all_fns_forget P : blind P -> forall y y', forget y' = forget y -> all_fns P y -> all_fns P y'.
Proof.
  intros HP. induction y as [x l IH] using hw_rect'. intros [x' l'] E. cbn in E.
  assert (E1 : put_mps 0 (put_buses 0 0 0 x') = put_mps 0 (put_buses 0 0 0 x)) by congruence.
  assert (E2 : map forget l' = map forget l) by congruence.
  rewrite !all_fns_eq. intros (A & B). split.
  - apply (HP x'). rewrite E1. apply (HP x). exact A.
  - clear E E1 A x x'. revert l' E2. induction l as [|z l IHl]; intros [|z' l'] E2; try discriminate; constructor; inversion IH; inversion B; subst.
    + injection E2 as Ez _. auto.
    + injection E2 as _ El. auto.
Qed.
Lemma all_fns_top P y : all_fns P y -> P (hw_fn y).
Proof. destruct y. rewrite all_fns_eq. tauto. Qed.

(** ** A hierarchy in which all support the size of the uppermost *)
Definition fresh (w : Z) (x : hfn) : Prop := h_mps x = 0 /\ in_hierarchy x /\ ~ port_type x 4 /\ supports w x.
Lemma walk_uniform m w l : forall x, 0 <= w -> in_hierarchy x -> h_mps x = w -> Forall (fun z => fresh w (hw_fn z)) l ->
  mps_walk m false x l = (x, map (set_fn (put_mps w)) l).
Proof.
  induction l as [|z r IH]; intros x Hw (t & s & Ex & Nt) Ew F; [reflexivity|].
  inversion F as [|? ? (Z0 & (tz & sz & Ez & Nz) & N4 & (tz' & sz' & Ez' & Ls)) F']; subst. cbn [mps_walk map].
  rewrite Ez in Ez'. injection Ez' as <- <-.
  assert (Em : mps_step m false (h_exp x) (h_mps x) (h_exp (hw_fn z)) (h_mps (hw_fn z)) = (h_mps x, h_mps x)).
  { unfold mps_step. rewrite Ez, Ex, Z0. replace (tz =? 9) with false by lia.
    replace (tz =? 4) with false by (symmetry; apply Z.eqb_neq; intros ->; apply N4; exists sz; exact Ez).
    destruct (0 =? h_mps x) eqn:E0; [f_equal; lia|]. replace (sz <? h_mps x) with false by lia. cbn [andb]. f_equal. lia. }
  rewrite Em, put_mps_same, IH; auto. exists t, s. auto.
Qed.
Lemma done_uniform m w : 0 <= w ->
  (forall root n y y' ds last, bus_done m root n y y' ds last -> root = false -> h_mps (hw_fn y) = w -> in_hierarchy (hw_fn y) ->
     Forall (all_fns (fresh w)) (hw_below y) -> all_fns (fun x => h_mps x = w) y') /\
  (forall n k l l' ds last, kids_done m n k l l' ds last -> Forall (fun z => h_mps (hw_fn z) = w /\ in_hierarchy (hw_fn z) /\ Forall (all_fns (fresh w)) (hw_below z)) l ->
     Forall (all_fns (fun x => h_mps x = w)) l').
Proof.
  intros Hw. apply done_ind; intros; subst; cbn [hw_below hw_fn] in *.
  - rewrite walk_uniform with (w := h_mps x) in H; auto.
    2:{ revert H5. apply Forall_impl. intros z. apply all_fns_top. }
    injection H as <- <-. apply all_fns_eq. split; [reflexivity|]. apply H1. apply Forall_map. revert H5. apply Forall_impl.
    intros [xz lz] A. apply all_fns_eq in A. destruct A as ((A1 & A2 & A3) & B). cbn. repeat split; auto.
  - constructor.
  - inversion H3 as [|? ? (A & B & D) H3']; subst. constructor; [|auto]. destruct z as [x lz]. cbn [hw_fn hw_below] in *. subst lz. apply all_fns_eq. auto.
  - inversion H4 as [|? ? (A & B & D) H4']; subst. constructor; [|auto]. destruct z as [x lz]. cbn [hw_fn hw_below set_fn] in *.
    specialize (H1 eq_refl eq_refl B D). destruct z' as [x' lz']. cbn [set_fn]. apply all_fns_eq in H1. apply all_fns_eq. exact H1.
Qed.

(** ** The first function below a root port decides *)
Lemma walk_first m x z r t s tz sz : 0 <= m -> h_exp x = Some (t, s) -> m <= s -> h_mps x = m -> t = 4 ->
  h_exp (hw_fn z) = Some (tz, sz) -> 0 <= sz -> tz <> 9 -> tz <> 4 -> h_mps (hw_fn z) = 0 ->
  mps_walk m false x (z :: r) = (let '(x', r') := mps_walk m false (put_mps (Z.min m sz) x) r in (x', set_fn (put_mps (Z.min m sz)) z :: r')).
Proof.
  intros Hm Ex Hs Em -> Ez Hz N9 N4 Z0. cbn [mps_walk]. unfold mps_step. rewrite Ez, Ex, Z0, Em.
  replace (tz =? 9) with false by lia. replace (tz =? 4) with false by lia.
  destruct (0 =? m) eqn:E0.
  { apply Z.eqb_eq in E0. subst m. rewrite <- E0 in *. replace (Z.min 0 sz) with 0 by lia. reflexivity. }
  replace (4 =? 4) with true by reflexivity. rewrite andb_true_r.
  destruct (sz <? m) eqn:El.
  - replace (Z.min sz s) with (Z.min m sz) by lia. replace (Z.min (Z.min m sz) sz) with (Z.min m sz) by lia. reflexivity.
  - replace (Z.min m sz) with m by lia. reflexivity.
Qed.
(** A function that is no root port keeps its size when the bus below it is scanned. *)
Lemma walk_keeps m root l : forall x, ~ port_type x 4 -> fst (mps_walk m root x l) = x.
Proof.
  induction l as [|z r IH]; intros x N; [reflexivity|]. cbn [mps_walk].
  assert (E : fst (mps_step m root (h_exp x) (h_mps x) (h_exp (hw_fn z)) (h_mps (hw_fn z))) = h_mps x).
  { unfold mps_step. destruct (h_exp (hw_fn z)) as [[tz sz]|]; [|reflexivity]. destruct (tz =? 9); [reflexivity|]. destruct (tz =? 4); [reflexivity|].
    destruct root; [reflexivity|]. destruct (h_exp x) as [[t s]|] eqn:Ex; [|reflexivity]. destruct (_ =? _); [reflexivity|].
    replace (t =? 4) with false by (symmetry; apply Z.eqb_neq; intros ->; apply N; exists s; exact Ex). rewrite andb_false_r. reflexivity. }
  destruct (mps_step _ _ _ _ _ _) as [a b]. cbn in E. subst a. rewrite put_mps_same.
  specialize (IH x N). destruct (mps_walk m root x r) as [x' r']. exact IH.
Qed.
Lemma done_keeps m root n y y' ds last : bus_done m root n y y' ds last -> ~ port_type (hw_fn y) 4 -> hw_fn y' = hw_fn y.
Proof. intros H N. inversion H; subst. cbn in *. pose proof (walk_keeps m root l x N) as W. rewrite H0 in W. exact W. Qed.
Lemma supports_blind w : blind (supports w).
Proof. intros x. reflexivity. Qed.

Lemma hierarchy m n y y' ds last t s : 0 <= m -> bus_done m false n y y' ds last ->
  h_exp (hw_fn y) = Some (t, s) -> t = 4 -> m <= s -> h_mps (hw_fn y) = m ->
  Forall (all_fns (fun x => h_mps x = 0 /\ in_hierarchy x /\ ~ port_type x 4 /\ supports 0 x)) (hw_below y) ->
  let w := first_size m y in
  (all_fns (supports w) y -> all_fns (fun x => h_mps x = w) y') /\
  (hw_below y = [] -> h_mps (hw_fn y') = w) /\
  (forall z r, hw_below y = z :: r -> exists z' r', hw_below y' = z' :: r' /\ h_mps (hw_fn z') = w).
Proof.
  intros Hm D Ex Et Hs Em Fr. inversion D as [? ? x l x' l' l'' ? ? W K]; subst. cbn [hw_fn hw_below] in *.
  unfold first_size. cbn [hw_below]. destruct l as [|z r].
  { cbn in W. injection W as <- <-. inversion K; subst. split; [|split; [reflexivity|discriminate]].
    intros _. apply all_fns_eq. split; [reflexivity|constructor]. }
  inversion Fr as [|? ? Fz Fr']; subst. pose proof (all_fns_top _ _ Fz) as (Z0 & (tz & sz & Ez & N9) & N4 & (tz' & sz' & Ez' & Ls)).
  rewrite Ez in Ez'. injection Ez' as <- <-.
  assert (N4' : tz <> 4) by (intros ->; apply N4; exists sz; exact Ez).
  rewrite Ez. rewrite (walk_first (h_mps x) x z r 4 s tz sz) in W; auto; try lia.
  set (w := Z.min (h_mps x) sz) in *. assert (Hw : 0 <= w) by (unfold w; lia).
  split; [|split; [discriminate|]].
  - intros Su. apply all_fns_eq in Su. destruct Su as (_ & Su).
    assert (Fr2 : Forall (all_fns (fresh w)) (z :: r)).
    { rewrite Forall_forall in *. intros u Hu. specialize (Su u Hu). specialize (Fr u Hu).
      pose proof (all_fns_and _ _ u Fr Su) as A. revert A. apply all_fns_impl. unfold fresh. tauto. }
    inversion Fr2 as [|? ? Fz2 Fr3]; subst.
    rewrite (walk_uniform (h_mps x) w r (put_mps w x)) in W; [|exact Hw|exists 4, s; split; [exact Ex|lia]|reflexivity|].
    2:{ revert Fr3. apply Forall_impl. intros u. apply all_fns_top. }
    injection W as <- <-. apply all_fns_eq. split; [reflexivity|].
    apply (proj2 (done_uniform (h_mps x) w Hw) _ _ _ _ _ _ K).
    change (set_fn (put_mps w) z :: map (set_fn (put_mps w)) r) with (map (set_fn (put_mps w)) (z :: r)).
    apply Forall_map. revert Fr2. apply Forall_impl. intros [xu lu] A. apply all_fns_eq in A. destruct A as ((A1 & A2 & A3) & B). cbn. repeat split; auto.
  - intros z0 r0 E. injection E as <- <-. destruct (mps_walk (h_mps x) false (put_mps w x) r) as [x1 r1]. injection W as <- <-.
    inversion K; subst.
    + eexists _, _. split; [reflexivity|]. destruct z; reflexivity.
    + eexists _, _. split; [reflexivity|].
      match goal with H : bus_done _ false _ _ z' _ _ |- _ => pose proof (done_keeps _ _ _ _ _ _ _ H) as Kp end.
      destruct z as [xz lz], z' as [xz' lz']. cbn [set_fn hw_fn] in *. rewrite Kp; [reflexivity|]. exact N4.
Qed.

Lemma kid_of m : 
  (forall root n y y' ds last, bus_done m root n y y' ds last -> True) /\
  (forall n k l l' ds last, kids_done m n k l l' ds last -> forall z', In z' l' ->
  exists z, In z l /\ ((z' = z /\ hw_below z = []) \/
    exists b last1 y ds1, bus_done m false b (set_fn (put_buses n b 255) z) y ds1 last1 /\ z' = set_fn (put_buses n b last1) y)).
Proof.
  apply done_ind; intros; auto.
  - destruct H.
  - destruct H3 as [<-|I]; [exists z; split; [left; reflexivity|left; auto]|].
    destruct (H2 _ I) as (u & Iu & X). exists u. split; [right; exact Iu|exact X].
  - destruct H4 as [<-|I].
    + exists z. split; [left; reflexivity|]. right. eexists _, _, _, _. split; [exact H0|reflexivity].
    + destruct (H3 _ I) as (u & Iu & X). exists u. split; [right; exact Iu|exact X].
Qed.
Lemma walk_root m l : forall x, forall x' l', mps_walk m true x l = (x', l') -> forall z', In z' l' ->
  exists z, In z l /\ z' = set_fn (put_mps (match h_exp (hw_fn z) with Some (ty, s) => if ty =? 9 then s else if ty =? 4 then m else h_mps (hw_fn z) | None => h_mps (hw_fn z) end)) z.
Proof.
  induction l as [|z r IH]; intros x x' l'; cbn [mps_walk].
  - intros E. injection E as <- <-. intros z' [].
  - assert (E : mps_step m true (h_exp x) (h_mps x) (h_exp (hw_fn z)) (h_mps (hw_fn z)) =
      (h_mps x, match h_exp (hw_fn z) with Some (ty, s) => if ty =? 9 then s else if ty =? 4 then m else h_mps (hw_fn z) | None => h_mps (hw_fn z) end)).
    { unfold mps_step. destruct (h_exp (hw_fn z)) as [[ty s]|]; [|reflexivity]. destruct (ty =? 9); [reflexivity|]. destruct (ty =? 4); reflexivity. }
    rewrite E. destruct (mps_walk m true _ r) as [x1 r1] eqn:E1. intros X. injection X as <- <-.
    intros z' [<-|I]; [exists z; split; [left; reflexivity|reflexivity]|]. destruct (IH _ _ _ E1 _ I) as (u & Iu & ->). exists u. split; [right; exact Iu|reflexivity].
Qed.

(** ** No function uses more than it supports itself *)
Definition own_ok (m : Z) (root : bool) (x : hfn) : Prop := own x /\ mps_ok m root x.
Lemma step_own m root x z : 0 <= m -> own x -> mps_good x -> own z -> mps_ok m root z ->
  let '(a, b) := mps_step m root (h_exp x) (h_mps x) (h_exp z) (h_mps z) in own (put_mps a x) /\ own (put_mps b z).
Proof.
  intros Hm Ox Gx Oz (Gz & Tz). unfold own in *.
  assert (G : forall a b, match h_exp x with Some (_, s) => a <= s | None => True end -> match h_exp z with Some (_, s) => b <= s | None => True end ->
    match h_exp (put_mps a x) with Some (_, s) => h_mps (put_mps a x) <= s | None => True end /\
    match h_exp (put_mps b z) with Some (_, s) => h_mps (put_mps b z) <= s | None => True end) by (intros a b A B; split; [exact A|exact B]).
  unfold mps_step.
  destruct (h_exp z) as [[tz sz]|] eqn:Ez; [|apply G; auto]. destruct (tz =? 9); [apply G; [auto|lia]|]. destruct (tz =? 4) eqn:E4.
  { apply Z.eqb_eq in E4. subst tz. apply G; [auto|]. destruct root; [apply (Tz sz); reflexivity|]. destruct Tz. exists sz. exact Ez. }
  destruct root; [apply G; auto|]. destruct (h_exp x) as [[t s]|]; [|apply G; auto]. destruct (h_mps z =? h_mps x); [apply G; auto|].
  destruct (_ && _); apply G; lia.
Qed.
Lemma walk_own m root l : 0 <= m <= 5 -> forall x x' l', own x -> mps_good x -> Forall (fun z => own_ok m root (hw_fn z)) l -> mps_walk m root x l = (x', l') ->
  own x' /\ mps_good x' /\ Forall (fun z => own (hw_fn z) /\ mps_good (hw_fn z)) l'.
Proof.
  intros Hm. induction l as [|z r IH]; intros x x' l' Ox Gx F; cbn [mps_walk].
  - intros E. injection E as <- <-. auto.
  - inversion F as [|? ? (Oz & Mz) F']; subst.
    pose proof (step_own m root x (hw_fn z) (proj1 Hm) Ox Gx Oz Mz) as S. pose proof (mps_step_range m Hm x (hw_fn z) root Gx Mz) as R.
    destruct (mps_step _ _ _ _ _ _) as [a b]. destruct S as (Sa & Sb), R as (Ra & Rb).
    destruct (mps_walk m root (put_mps a x) r) as [x1 r1] eqn:E1. intros X. injection X as <- <-.
    destruct (IH (put_mps a x) x1 r1 Sa) as (A & B & D); auto; [split; [exact Ra|exact (proj2 Gx)]|].
    split; [exact A|]. split; [exact B|]. constructor; [|exact D]. destruct z as [xz lz]. destruct Mz as (Mz & _). split; [exact Sb|]. split; [exact Rb|]. exact (proj2 Mz).
Qed.
Lemma done_own m : 0 <= m <= 5 ->
  (forall root n y y' ds last, bus_done m root n y y' ds last -> own (hw_fn y) -> mps_good (hw_fn y) ->
     Forall (fun z => own_ok m root (hw_fn z)) (hw_below y) -> Forall (fun z => Forall (all_fns (own_ok m false)) (hw_below z)) (hw_below y) ->
     all_fns own y') /\
  (forall n k l l' ds last, kids_done m n k l l' ds last -> Forall (fun z => own (hw_fn z) /\ mps_good (hw_fn z) /\ Forall (all_fns (own_ok m false)) (hw_below z)) l ->
     Forall (all_fns own) l').
Proof.
  intros Hm. apply done_ind; intros; cbn [hw_below hw_fn] in *.
  - destruct (mps_walk_shape _ _ _ _ _ _ H) as (_ & Sh).
    destruct (walk_own m root l Hm x x' l' H2 H3 H4 H) as (A & B & D). apply all_fns_eq. split; [exact A|]. apply H1. clear -Sh D H5.
    induction Sh as [|z z' r r' (v & ->) _ IH]; inversion D as [|? ? (D1 & D2) D']; inversion H5; subst; constructor; auto.
    split; [exact D1|]. split; [exact D2|]. destruct z. assumption.
  - constructor.
  - inversion H3 as [|? ? (A & B & D) H3']; subst. constructor; [|auto]. destruct z as [x lz]. cbn [hw_fn hw_below] in *. subst lz. apply all_fns_eq. auto.
  - inversion H4 as [|? ? (A & B & D) H4']; subst. constructor; [|auto]. destruct z as [x lz]. cbn [hw_fn hw_below set_fn] in *.
    assert (X : all_fns own z').
    { apply H1; auto.
      - rewrite Forall_forall in *. intros u Hu. apply all_fns_top, D, Hu.
      - rewrite Forall_forall in *. intros u Hu. specialize (D u Hu). destruct u. apply all_fns_eq in D. tauto. }
    destruct z' as [x' lz']. cbn [set_fn]. apply all_fns_eq in X. apply all_fns_eq. exact X.
Qed.

(** ** The system *)
Lemma below_ok m y : hw_all good_node y -> hw_all no_root_port y -> all_fns (fun x => h_mps x = 0) y ->
  Forall (all_fns (fun x => h_mps x = 0 /\ ~ port_type x 4 /\ own_ok m false x)) (hw_below y).
Proof.
  induction y as [x l IH] using hw_rect'. rewrite !hw_all_eq, all_fns_eq. unfold no_root_port. cbn [hw_below hw_fn].
  intros ((_ & _ & Gf & _) & Gl) (P1 & P2) (_ & Z0). cbn [hw_fn hw_below] in Gf.
  rewrite Forall_forall in *. intros z Hz. specialize (IH z Hz (Gl z Hz) (P2 z Hz) (Z0 z Hz)). specialize (Gf z Hz). specialize (P1 z Hz). specialize (Z0 z Hz).
  destruct z as [xz lz]. apply all_fns_eq. split; [|exact IH]. cbn [hw_fn] in *. apply all_fns_eq in Z0. destruct Z0 as (Z0 & _).
  split; [exact Z0|]. split; [exact P1|]. split; [|split; [split; [lia|unfold good_fn in Gf; tauto]|exact P1]].
  unfold own. unfold good_fn in Gf. destruct (h_exp xz) as [[t s]|]; [lia|auto].
Qed.
Lemma system_own m h h' ds last : good_system m h -> reset h -> bus_done m true 0 h h' ds last -> Forall (all_fns own) (hw_below h').
Proof.
  intros (Ty & Ee & Em & Es & Eu & Hm & Gn & Gr) Rs D. destruct h as [x l]. cbn [hw_fn hw_below] in *. unfold reset in Rs. cbn [hw_below] in Rs.
  apply hw_all_eq in Gn. destruct Gn as ((_ & Gb) & Gl). destruct Gb as (_ & Gf & _). cbn [hw_fn hw_below] in Gf.
  assert (X : all_fns own h').
  { apply (proj1 (done_own m Hm) _ _ _ _ _ _ D); cbn [hw_fn hw_below].
    - unfold own. rewrite Ee. exact Logic.I.
    - split; [exact Em|rewrite Ee; exact Logic.I].
    - rewrite Forall_forall in *. intros z Hz. specialize (Gf z Hz). specialize (Gr z Hz). specialize (Rs z Hz). apply all_fns_top in Rs.
      unfold good_fn in Gf. split; [|split; [split; tauto|tauto]]. unfold own. destruct (h_exp (hw_fn z)) as [[t s]|]; [lia|auto].
    - rewrite Forall_forall in *. intros z Hz. pose proof (below_ok m z (Gl z Hz) (proj2 (proj2 (Gr z Hz))) (Rs z Hz)) as B.
      revert B. apply Forall_impl. intros u. apply all_fns_impl. tauto. }
  destruct h'. apply all_fns_eq in X. tauto.
Qed.
Lemma supports_lower v w x : v <= w -> supports w x -> supports v x.
Proof. intros L (t & s & E & H). exists t, s. split; [exact E|lia]. Qed.
Lemma system_hierarchy m h h' ds last : good_system m h -> reset h -> bus_done m true 0 h h' ds last ->
  forall z', In z' (hw_below h') -> port_type (hw_fn z') 4 -> all_fns in_hierarchy z' ->
  (all_fns (supports (first_size m z')) z' -> all_fns (fun x => h_mps x = first_size m z') z') /\
  (consistent z' <-> all_fns (supports (first_size m z')) z').
Proof.
  intros (Ty & Ee & Em & Es & Eu & Hm & Gn & Gr) Rs D z' Hz' (s & P4) Hi. destruct h as [x l]. cbn [hw_fn hw_below] in *. unfold reset in Rs. cbn [hw_below] in Rs.
  inversion D as [? ? ? ? x1 l1 l2 ? ? W K]; subst. cbn [hw_below] in *.
  destruct (proj2 (kid_of m) _ _ _ _ _ _ K z' Hz') as (z1 & Iz1 & Z1).
  destruct (walk_root m l x _ _ W z1 Iz1) as (z & Iz & E1).
  apply hw_all_eq in Gn. destruct Gn as ((_ & Gb) & Gl). destruct Gb as (_ & Gf & _). cbn [hw_fn hw_below] in Gf.
  rewrite Forall_forall in Gf, Gr, Gl, Rs. specialize (Gf z Iz). specialize (Gr z Iz). specialize (Gl z Iz). specialize (Rs z Iz).
  assert (Ex : h_exp (hw_fn z) = Some (4, s)).
  { destruct Z1 as [(-> & _)|(b & last1 & y & ds1 & D1 & ->)].
    - subst z1. destruct z. exact P4.
    - apply done_fn in D1. destruct D1 as (v & Ev). subst z1. destruct z, y. cbn in Ev, P4. subst. exact P4. }
  rewrite Ex in E1. change (4 =? 9) with false in E1. change (4 =? 4) with true in E1. cbn iota in E1.
  destruct Gr as (_ & Gm & Gp). specialize (Gm s Ex).
  pose proof (below_ok m z Gl Gp Rs) as Bl.
  assert (FIN : forall w, (all_fns (supports w) z' -> all_fns (fun x => h_mps x = w) z') ->
     (exists u, In u (map snd (functions 0 z')) /\ h_mps u = w) ->
     (all_fns (supports w) z' -> all_fns (fun x => h_mps x = w) z') /\ (consistent z' <-> all_fns (supports w) z')).
  { intros w A (u & Iu & Eu'). split; [exact A|]. split.
    - intros Co. subst w. unfold consistent in Co. revert Iu. clear -Co. revert Co. generalize (all_fns (supports 0) z'). intros _.
      assert (G : forall (P : hfn -> Prop) y n, all_fns P y -> forall u, In u (map snd (functions n y)) -> P u).
      { clear. intros P. induction y as [x l IH] using hw_rect'. intros n H u. apply all_fns_eq in H. destruct H as (H & Hl). cbn [functions map].
        intros [<-|I]; [exact H|]. apply in_map_iff in I. destruct I as (e & <- & I). apply in_flat_map in I. destruct I as (z & Iz & I).
        rewrite Forall_forall in IH, Hl. apply (IH z Iz (h_sec x) (Hl z Iz)). apply in_map. exact I. }
      intros Co Iu. exact (G _ z' 0 Co u Iu).
    - intros Su. specialize (A Su). unfold consistent. revert A. apply all_fns_impl. intros y ->. exact Su. }
  destruct Z1 as [(-> & Be)|(b & last1 & y & ds1 & D1 & ->)].
  - destruct z as [xz lz]. subst z1. cbn [set_fn hw_below hw_fn] in *. subst lz. unfold first_size. cbn [hw_below]. apply FIN.
    + intros _. apply all_fns_eq. split; [reflexivity|constructor].
    + eexists. split; [left; reflexivity|reflexivity].
  - subst z1. pose proof (proj1 (done_forget m) _ _ _ _ _ _ D1) as Fo.
    assert (Hi' : all_fns in_hierarchy z).
    { assert (Fo2 : forget z = forget (set_fn (put_buses 0 b last1) y)).
      { rewrite forget_set by reflexivity. rewrite Fo, !forget_set by reflexivity. reflexivity. }
      revert Hi. apply all_fns_forget; [intros u; reflexivity|exact Fo2]. }
    destruct z as [xz lz]. cbn [set_fn hw_below hw_fn] in *.
    assert (Fr : Forall (all_fns (fun x => h_mps x = 0 /\ in_hierarchy x /\ ~ port_type x 4 /\ supports 0 x)) lz).
    { apply all_fns_eq in Hi'. destruct Hi' as (_ & Hi'). rewrite Forall_forall in *. intros u Iu.
      pose proof (all_fns_and _ _ u (Bl u Iu) (Hi' u Iu)) as A. revert A. apply all_fns_impl. intros v ((A1 & A2 & (A3 & (A4 & _))) & A5).
      split; [exact A1|]. split; [exact A5|]. split; [exact A2|]. destruct A5 as (t & s' & E & _). exists t, s'. split; [exact E|].
      unfold mps_good in A4. rewrite E in A4. lia. }
    destruct (hierarchy m b _ y ds1 last1 4 s (proj1 Hm) D1 Ex eq_refl Gm eq_refl Fr) as (A & B & C).
    assert (Ew : first_size m (set_fn (put_buses 0 b last1) y) = first_size m (Hw (put_buses 0 b 255 (put_mps m xz)) lz)).
    { destruct y as [xy ly]. cbn in Fo. assert (El : map forget ly = map forget lz) by congruence. unfold first_size. cbn [hw_below set_fn].
      destruct ly as [|u ly], lz as [|v lz]; try discriminate; [reflexivity|]. cbn in El. assert (Eu' : forget u = forget v) by congruence.
      destruct u as [xu lu], v as [xv lv]. cbn in Eu'. injection Eu' as _ _ _ _ _ Eex _ _ _. cbn. rewrite Eex. reflexivity. }
    rewrite Ew. apply FIN.
    + intros Su. assert (X : all_fns (fun x => h_mps x = first_size m (Hw (put_buses 0 b 255 (put_mps m xz)) lz)) y).
      { apply A. revert Su. apply all_fns_forget; [apply supports_blind|]. rewrite forget_set by reflexivity. symmetry. exact Fo. }
      destruct y as [xy ly]. cbn [set_fn]. apply all_fns_eq in X. apply all_fns_eq. exact X.
    + destruct lz as [|v lz].
      * specialize (B eq_refl). destruct y as [xy ly]. eexists. split; [left; reflexivity|exact B].
      * destruct (C v lz eq_refl) as (u & ly & Ey & Eu'). destruct y as [xy ly']. cbn in Ey. subst ly'.
        exists (hw_fn u). split; [|exact Eu']. cbn. right. apply in_map_iff. eexists (_, hw_fn u). split; [reflexivity|].
        apply in_or_app. left. destruct u. left. reflexivity.
Qed.

(** ** Statements of PropertiesEnum.v *)
Lemma enumeration m h : good_system m h -> bridges h <= 256 ->
  exists h', scan_root m h = Ok (h', PBus 0 0 (bridges h - 1) (map (view 0) (hw_below h'))) /\
    forget h' = forget h /\ buses h' = interval 0 (bridges h - 1).
Proof. intros G L. destruct (enumerated m h G L) as (h' & A & B & _ & D & _). eauto. Qed.
Lemma limit m h : good_system m h -> 256 < bridges h -> scan_root m h = Err ValueError.
Proof. intros G L. pose proof (scan_system m h G) as S. replace (bridges h <=? 256) with false in S by lia. exact S. Qed.
Lemma outcome m h h' b : good_system m h -> scan_root m h = Ok (h', b) ->
  b = PBus 0 0 (bridges h - 1) (map (view 0) (hw_below h')) /\
    forget h' = forget h /\ like (hw_fn h) (hw_fn h') /\ buses h' = interval 0 (bridges h - 1) /\ ordered 0 (hw_below h') /\
    Forall (hw_all ranged) (hw_below h') /\ hw_all keyed h' /\ bus_done m true 0 h h' (map (view 0) (hw_below h')) (bridges h - 1).
Proof.
  intros G E. destruct (Z_le_gt_dec (bridges h) 256) as [L|L].
  - destruct (enumerated m h G L) as (h1 & A & B). rewrite A in E. injection E as <- <-. auto.
  - rewrite limit in E by (auto; lia). discriminate.
Qed.
Lemma ranges m h h' b : good_system m h -> scan_root m h = Ok (h', b) ->
  ordered 0 (hw_below h') /\
  Forall (hw_all (fun y => is_bridge (hw_fn y) = true ->
    buses y = interval (h_sec (hw_fn y)) (h_sub (hw_fn y)) /\ ordered (h_sec (hw_fn y)) (hw_below y))) (hw_below h').
Proof.
  intros G E. destruct (outcome m h h' b G E) as (_ & _ & _ & _ & O & R & _). split; [exact O|].
  assert (X : forall n l, ordered n l -> Forall (hw_all ranged) l -> Forall (hw_all (fun y => is_bridge (hw_fn y) = true ->
    buses y = interval (h_sec (hw_fn y)) (h_sub (hw_fn y)) /\ ordered (h_sec (hw_fn y)) (hw_below y))) l).
  2:{ apply (X 0); auto. }
  clear. intros n l (_ & O) R. revert n O. assert (Y : forall y, hw_all ranged y -> (is_bridge (hw_fn y) = true -> h_sec (hw_fn y) <= h_sub (hw_fn y)) ->
    hw_all (fun y => is_bridge (hw_fn y) = true -> buses y = interval (h_sec (hw_fn y)) (h_sub (hw_fn y)) /\ ordered (h_sec (hw_fn y)) (hw_below y)) y).
  { induction y as [x k IH] using hw_rect'. intros Ry L. apply hw_all_eq in Ry. destruct Ry as (Rx & Rk). apply hw_all_eq. split.
    - intros B. split; [apply ranged_buses; auto|]. unfold ranged in Rx. rewrite B in Rx. tauto.
    - unfold ranged in Rx. cbn [hw_fn hw_below] in Rx, L. destruct (is_bridge x); [|subst k; constructor].
      destruct Rx as (_ & _ & Ok'). rewrite Forall_forall in *. intros z Hz. apply IH; auto. intros B. specialize (Ok' z Hz B). lia. }
  intros n O. rewrite Forall_forall in *. intros z Hz. apply Y; [auto|]. intros B. specialize (O z Hz B). lia.
Qed.
Lemma view_ids n y : hw_all ranged y -> map p_id (let '(p, o) := view n y in p :: match o with Some c => bus_fns c | None => [] end) = map number (functions n y).
Proof.
  revert n. induction y as [x l IH] using hw_rect'. intros n R. apply hw_all_eq in R. destruct R as (Rx & Rl). cbn [view functions map]. f_equal.
  unfold ranged in Rx. cbn [hw_fn hw_below] in Rx. destruct (is_bridge x); [|subst l; reflexivity]. clear Rx. cbn [bus_fns].
  induction l as [|z r IHr]; [reflexivity|]. inversion IH; inversion Rl; subst. cbn [flat_map map]. rewrite !map_app. f_equal; [|auto]. auto.
Qed.
Lemma found m h h' b : good_system m h -> scan_root m h = Ok (h', b) ->
  map p_id (bus_fns b) = map number (below_functions h') /\ NoDup (map p_id (bus_fns b)).
Proof.
  intros G E. destruct (outcome m h h' b G E) as (-> & Fo & Li & _ & O & R & K & _).
  assert (S0 : h_sec (hw_fn h') = 0) by (destruct G as (_ & _ & _ & Es & _); destruct Li as (v & ->); exact Es).
  assert (X : map p_id (bus_fns (PBus 0 0 (bridges h - 1) (map (view 0) (hw_below h')))) = map number (below_functions h')).
  { unfold below_functions. rewrite S0. cbn [bus_fns]. clear -R. induction (hw_below h') as [|z r IH]; [reflexivity|]. inversion R; subst.
    cbn [flat_map map]. rewrite !map_app. f_equal; [|auto]. apply view_ids. assumption. }
  split; [exact X|]. rewrite X. apply nodup_functions; [|exact K]. right. rewrite S0. auto.
Qed.
Lemma accesses m h h' b : good_system m h -> scan_root m h = Ok (h', b) ->
  forall n d f x, hw_get n d f h' = Some x <-> In (n, x) (below_functions h') /\ h_d x = d /\ h_f x = f.
Proof.
  intros G E n d f x. destruct (outcome m h h' b G E) as (-> & Fo & Li & _ & O & R & K & _).
  assert (S0 : h_sec (hw_fn h') = 0) by (destruct G as (_ & _ & _ & Es & _); destruct Li as (v & ->); exact Es).
  split; [apply get_in|]. intros (I & <- & <-). apply get_functions; [|exact K|exact I]. right. rewrite S0. auto.
Qed.
Lemma own_sizes m h h' b : good_system m h -> reset h -> scan_root m h = Ok (h', b) -> Forall (all_fns own) (hw_below h').
Proof. intros G R E. destruct (outcome m h h' b G E) as (_ & _ & _ & _ & _ & _ & _ & D). apply (system_own m h h' _ _ G R D). Qed.
Lemma sizes m h h' b : good_system m h -> reset h -> scan_root m h = Ok (h', b) ->
  forall z, In z (hw_below h') -> port_type (hw_fn z) 4 -> all_fns in_hierarchy z ->
  (all_fns (supports (first_size m z)) z -> all_fns (fun x => h_mps x = first_size m z) z) /\
  (consistent z <-> all_fns (supports (first_size m z)) z).
Proof. intros G R E. destruct (outcome m h h' b G E) as (_ & _ & _ & _ & _ & _ & _ & D). apply (system_hierarchy m h h' _ _ G R D). Qed.
Definition mps_nonneg (x : hfn) : Prop := match h_exp x with Some (_, s) => 0 <= s | None => True end.
Lemma hw_nonneg y : hw_all good_node y -> Forall (all_fns mps_nonneg) (hw_below y).
Proof.
  induction y as [x l IH] using hw_rect'. rewrite hw_all_eq. intros ((_ & _ & Gf & _) & Gl). cbn [hw_fn hw_below] in *.
  rewrite Forall_forall in *. intros z Hz. specialize (IH z Hz (Gl z Hz)). specialize (Gf z Hz). destruct z as [xz lz]. apply all_fns_eq. split; [|exact IH].
  cbn in Gf. unfold mps_nonneg. unfold good_fn in Gf. destruct (h_exp xz) as [[t s]|]; [lia|auto].
Qed.
Lemma in_map_forget l' l : map forget l' = map forget l -> forall z, In z l' -> exists u, In u l /\ forget z = forget u.
Proof.
  intros E z Iz. assert (I : In (forget z) (map forget l)) by (rewrite <- E; apply in_map; exact Iz). apply in_map_iff in I.
  destruct I as (u & Eu & Iu). exists u. auto.
Qed.
Lemma default_sizes h h' b : good_system 0 h -> reset h -> scan_root 0 h = Ok (h', b) ->
  forall z, In z (hw_below h') -> port_type (hw_fn z) 4 -> all_fns in_hierarchy z -> consistent z.
Proof.
  intros G R E z Iz P Hi. apply (sizes 0 h h' b G R E z Iz P Hi).
  destruct (outcome 0 h h' b G E) as (_ & Fo & _).
  assert (Gz : all_fns mps_nonneg z).
  { destruct G as (_ & _ & _ & _ & _ & _ & Gn & _). destruct h as [x l], h' as [x' l']. cbn [hw_below] in Iz.
    pose proof (hw_nonneg _ Gn) as N. cbn [hw_below] in N. cbn in Fo. assert (El : map forget l' = map forget l) by congruence.
    destruct (in_map_forget l' l El z Iz) as (u & Iu & Eu). rewrite Forall_forall in N. apply (all_fns_forget mps_nonneg) with u; [intros v; reflexivity|exact Eu|auto]. }
  pose proof (all_fns_and _ _ z Gz Hi) as A.
  assert (F0 : first_size 0 z = 0).
  { unfold first_size. destruct z as [xz lz]. cbn [hw_below]. destruct lz as [|u lz]; [reflexivity|]. apply all_fns_eq in A. destruct A as (_ & A). inversion A as [|? ? Au _]; subst.
    apply all_fns_top in Au. destruct Au as (Nn & t & s & Eu & _). unfold mps_nonneg in Nn. rewrite Eu in Nn |- *. lia. }
  rewrite F0. revert A. apply all_fns_impl. intros u (Nn & t & s & Eu & _). unfold mps_nonneg in Nn. rewrite Eu in Nn. exists t, s. split; [exact Eu|exact Nn].
Qed.

Lemma type0 f x l t ty : fmt_type t = Ok ty -> In ty [CFG_READ_0; CFG_WRITE_0] -> device (f_id f) = h_d x -> func (f_id f) = h_f x ->
  match_tlp 2 f t = Ok (is_at (device (completer_id t)) (func (completer_id t)) (Hw x l)) /\
  match_tlp 6 f t = Ok (is_at (device (completer_id t)) (func (completer_id t)) (Hw x l)) /\ match_secondary f t = Ok false.
Proof.
  intros E [<-|[<-|[]]] Ed Ef; unfold match_tlp, match_secondary, is_at; rewrite E; cbn [bind hw_fn]; rewrite Ed, Ef; auto.
Qed.
Lemma type1 f x l t ty : fmt_type t = Ok ty -> In ty [CFG_READ_1; CFG_WRITE_1] -> is_bridge x = true ->
  f_attr f fn_sec_bus_num = h_sec x -> f_attr f fn_sub_bus_num = h_sub x -> bus (completer_id t) <> 0 ->
  match_tlp 2 f t = Ok false /\ match_secondary f t = Ok (claims_bus (bus (completer_id t)) (Hw x l)).
Proof.
  intros E [<-|[<-|[]]] B Es Eu N; unfold match_tlp, match_secondary, claims_bus; rewrite E; cbn [bind hw_fn]; rewrite B, Es, Eu;
    (split; [reflexivity|]); f_equal; unfold id_eqb, id0; cbn [bus device func]; lia.
Qed.
