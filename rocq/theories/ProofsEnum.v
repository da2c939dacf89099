(** Enumeration: accesses inside a subtree, the scan of one bus. *)
From Verif Require Import Base ModelUtils ModelChan ModelEnum SpecEnum.
Require Import Sorting.Sorted.

(** ** Induction on trees *)
Lemma hw_rect' (P : hw -> Prop) : (forall x l, Forall P l -> P (Hw x l)) -> forall y, P y.
Proof.
  intros H. fix go 1. intros [x l]. apply H. induction l as [|z r IH]; constructor; [apply go|exact IH].
Qed.
Lemma hw_all_eq P x l : hw_all P (Hw x l) <-> P (Hw x l) /\ Forall (hw_all P) l.
Proof.
  cbn. split; intros [H K]; split; auto.
  - clear H. induction l as [|z r IH]; [constructor|]. destruct K as (K1 & K2). constructor; auto.
  - clear H. induction K; auto.
Qed.

(** ** Accesses *)
Lemma get_here n d f x l : h_sec x = n -> hw_get n d f (Hw x l) = option_map hw_fn (find (is_at d f) l).
Proof.
  intros <-. cbn. rewrite Z.eqb_refl. induction l as [|z r IH]; cbn; [reflexivity|].
  destruct (is_at d f z); [reflexivity|exact IH].
Qed.
Definition clear_of d f (l : list hw) := Forall (fun z => is_at d f z = false) l.
Lemma find_clear d f pre post : clear_of d f pre -> find (is_at d f) (pre ++ post) = find (is_at d f) post.
Proof. induction 1 as [|z r E _ IH]; cbn; [reflexivity|rewrite E; exact IH]. Qed.
Lemma find_clear_none d f l : clear_of d f l -> find (is_at d f) l = None.
Proof. intros H. rewrite <- (app_nil_r l), (find_clear d f l [] H). reflexivity. Qed.
Lemma map_here g n d f x pre z post : h_sec x = n -> clear_of d f pre -> is_at d f z = true ->
  hw_map g n d f (Hw x (pre ++ z :: post)) = Hw x (pre ++ set_fn g z :: post).
Proof.
  intros <- H E. cbn. rewrite Z.eqb_refl. f_equal.
  induction H as [|a r Ea _ IH]; cbn; [rewrite E; reflexivity|rewrite Ea, IH; reflexivity].
Qed.
Definition unclaimed b (l : list hw) := Forall (fun z => claims_bus b z = false) l.
Lemma get_down b d f x pre z post : h_sec x <> b -> unclaimed b pre -> claims_bus b z = true ->
  hw_get b d f (Hw x (pre ++ z :: post)) = hw_get b d f z.
Proof.
  intros N H E. cbn. replace (b =? h_sec x) with false by lia.
  induction H as [|a r Ea _ IH]; cbn; [rewrite E; reflexivity|rewrite Ea, IH; reflexivity].
Qed.
Lemma map_down g b d f x pre z post : h_sec x <> b -> unclaimed b pre -> claims_bus b z = true ->
  hw_map g b d f (Hw x (pre ++ z :: post)) = Hw x (pre ++ hw_map g b d f z :: post).
Proof.
  intros N H E. cbn. replace (b =? h_sec x) with false by lia. f_equal.
  induction H as [|a r Ea _ IH]; cbn; [rewrite E; reflexivity|rewrite Ea, IH; reflexivity].
Qed.

(** [C y]: the system with [y] in it, and [n] the first bus below [y].  [p] is what the host knows of [y]. *)
Definition ready (n : Z) (y : hw) : Prop := is_bridge (hw_fn y) = true /\ h_sec (hw_fn y) = n /\ h_sub (hw_fn y) = 255.
Definition named (p : pfn) (y : hw) : Prop := h_d (hw_fn y) = device (p_id p) /\ h_f (hw_fn y) = func (p_id p).
Record focus (C : hw -> hw) (n : Z) (br : option pfn) : Prop := mkFocus {
  fo_get : forall y b d f, ready n y -> n <= b <= 255 -> hw_get b d f (C y) = hw_get b d f y;
  fo_map : forall g y b d f, ready n y -> n <= b <= 255 -> hw_map g b d f (C y) = C (hw_map g b d f y);
  fo_own : forall p y, br = Some p -> named p y -> p_at hw_get p (C y) = Some (hw_fn y);
  fo_set : forall g p y, br = Some p -> named p y -> p_at (hw_map g) p (C y) = C (set_fn g y) }.
Lemma focus_root : focus (fun y => y) 0 None.
Proof. constructor; intros; try reflexivity; discriminate. Qed.
Lemma is_at_true d f z : is_at d f z = true <-> h_d (hw_fn z) = d /\ h_f (hw_fn z) = f.
Proof. unfold is_at. rewrite andb_true_iff, !Z.eqb_eq. reflexivity. Qed.
Lemma focus_below C n br x pre post p k : focus C n br -> ready n (Hw x []) -> 0 <= n < k -> k <= 255 -> bus (p_id p) = n ->
  clear_of (device (p_id p)) (func (p_id p)) pre -> (forall b, k <= b -> unclaimed b pre) ->
  focus (fun z => C (Hw x (pre ++ z :: post))) k (Some p).
Proof.
  intros [G M _ _] (R1 & R2 & R3) Hk Hk' Eb Cl Un. cbn in R1, R2, R3.
  assert (R : forall z, ready n (Hw x (pre ++ z :: post))) by (intros z; repeat split; auto).
  constructor; intros.
  - destruct H as (B & S1 & S2). rewrite G; [|apply R|lia].
    apply get_down; [lia|apply Un; lia|]. unfold claims_bus. rewrite B, S1, S2. lia.
  - destruct H as (B & S1 & S2). rewrite M; [|apply R|lia]. f_equal.
    apply map_down; [lia|apply Un; lia|]. unfold claims_bus. rewrite B, S1, S2. lia.
  - injection H as <-. unfold p_at. rewrite Eb, G; [|apply R|lia]. rewrite get_here by exact R2.
    rewrite find_clear by exact Cl. cbn. rewrite (proj2 (is_at_true _ _ y) H0). reflexivity.
  - injection H as <-. unfold p_at. rewrite Eb, M; [|apply R|lia]. f_equal.
    apply map_here; [exact R2|exact Cl|apply is_at_true; exact H0].
Qed.

(** ** Payload sizes: what [configure_mps] does to the bridge above and to the function *)
Definition mps_step (m : Z) (root : bool) (be : option (Z * Z)) (bm : Z) (e : option (Z * Z)) (v : Z) : Z * Z :=
  match e with
  | None => (bm, v)
  | Some (ty, mpss) =>
    if ty =? 9 then (bm, mpss)
    else if ty =? 4 then (bm, m)
    else if root then (bm, v)
    else match be with
         | None => (bm, v)
         | Some (bty, bmpss) =>
           if v =? bm then (bm, v)
           else let bm := if (mpss <? bm) && (bty =? 4) then Z.min mpss bmpss else bm in (bm, Z.min bm mpss)
         end
  end.
Definition mps_good (x : hfn) : Prop := 0 <= h_mps x <= 5 /\ match h_exp x with Some (_, s) => 0 <= s <= 5 | None => True end.
Definition mps_ok (m : Z) (root : bool) (z : hfn) : Prop :=
  mps_good z /\ (if root then forall s, h_exp z = Some (4, s) -> m <= s else ~ port_type z 4).
Definition is_root (br : option pfn) : bool := match br with None => true | Some _ => false end.
(** What the host knows of the bridge of the bus *)
Definition knows (br : option pfn) (x : hfn) : Prop :=
  match br with
  | None => True
  | Some p => p_exp p = h_exp x /\ named p (Hw x [])
  end.
Lemma put_mps_same x : put_mps (h_mps x) x = x.
Proof. destruct x; reflexivity. Qed.
Lemma set_fn_same v z : h_mps (hw_fn z) = v -> set_fn (put_mps v) z = z.
Proof. destruct z as [x l]. cbn. intros <-. rewrite put_mps_same. reflexivity. Qed.

Section One.
Variables (C : hw -> hw) (n : Z) (br : option pfn) (m : Z).
Hypotheses (F : focus C n br) (Hn : 0 <= n <= 255) (Hm : 0 <= m <= 5).
Lemma configure_mps_ok x pre z post p d f :
  ready n (Hw x []) -> knows br x -> mps_good x -> clear_of d f pre -> is_at d f z = true ->
  p_id p = mkId n d f -> p_exp p = h_exp (hw_fn z) -> mps_ok m (is_root br) (hw_fn z) ->
  let '(a, b) := mps_step m (is_root br) (h_exp x) (h_mps x) (h_exp (hw_fn z)) (h_mps (hw_fn z)) in
  configure_mps m br p (C (Hw x (pre ++ z :: post))) = Ok (C (Hw (put_mps a x) (pre ++ set_fn (put_mps b) z :: post))).
Proof.
  intros (R1 & R2 & R3) K (Gx & Gx') Cl At Ep Ee ((Gz & Gz') & T).
  destruct F as [G M Ow St].
  assert (RA : forall x' l, is_bridge x' = true -> h_sec x' = n -> h_sub x' = 255 -> ready n (Hw x' l)) by (intros; repeat split; auto).
  cbn in R1, R2, R3.
  assert (SET : forall v x', is_bridge x' = true -> h_sec x' = n -> h_sub x' = 255 ->
    p_at (hw_map (put_mps v)) p (C (Hw x' (pre ++ z :: post))) = C (Hw x' (pre ++ set_fn (put_mps v) z :: post))).
  { intros v x' A B D. unfold p_at. rewrite Ep. cbn [bus device func]. rewrite M; [|auto|lia]. f_equal. apply map_here; auto. }
  assert (GET : get_mps p (C (Hw x (pre ++ z :: post))) = h_mps (hw_fn z)).
  { unfold get_mps, p_at. rewrite Ep. cbn [bus device func]. rewrite G; [|auto|lia]. rewrite get_here by exact R2.
    rewrite find_clear by exact Cl. cbn. rewrite At. reflexivity. }
  unfold configure_mps, mps_step. rewrite Ee.
  destruct (h_exp (hw_fn z)) as [[ty s]|] eqn:Ez; [|rewrite put_mps_same, set_fn_same by reflexivity; reflexivity].
  destruct (ty =? 9) eqn:E9.
  { unfold set_mps. replace ((s <? 0) || (s >? 5) || (s >? s)) with false by lia. rewrite SET, put_mps_same by auto. reflexivity. }
  destruct (ty =? 4) eqn:E4.
  { apply Z.eqb_eq in E4. subst ty. destruct br as [b|]; cbn [is_root] in T.
    - destruct T. exists s. first [exact Ez|reflexivity].
    - specialize (T s eq_refl). unfold set_mps. replace ((m <? 0) || (m >? 5) || (m >? s)) with false by lia.
      rewrite SET, put_mps_same by auto. reflexivity. }
  destruct br as [b|]; cbn [is_root]; [|rewrite put_mps_same, set_fn_same by reflexivity; reflexivity].
  destruct K as (Kb & Nm). rewrite Kb.
  destruct (h_exp x) as [[bty bs]|] eqn:Ex; [|rewrite put_mps_same, set_fn_same by reflexivity; reflexivity].
  rewrite GET.
  assert (OWN : forall v l, get_mps b (C (Hw (put_mps v x) l)) = v).
  { intros v l. unfold get_mps. rewrite (Ow b); [reflexivity|reflexivity|exact Nm]. }
  assert (OWN0 : forall l, get_mps b (C (Hw x l)) = h_mps x).
  { intros l. rewrite <- (put_mps_same x) at 1. apply OWN. }
  rewrite OWN0.
  destruct (h_mps (hw_fn z) =? h_mps x) eqn:Em; [rewrite put_mps_same, set_fn_same by reflexivity; reflexivity|].
  destruct ((s <? h_mps x) && (bty =? 4)) eqn:El; cbn [bind].
  - unfold set_mps at 1. replace ((Z.min s bs <? 0) || (Z.min s bs >? 5) || (Z.min s bs >? bs)) with false by lia.
    rewrite St; [|reflexivity|exact Nm]. cbn [set_fn bind]. rewrite OWN.
    unfold set_mps. replace (_ || _ || _) with false by lia. rewrite SET; auto.
  - unfold set_mps. replace (_ || _ || _) with false by lia. rewrite SET by auto. rewrite put_mps_same. reflexivity.
Qed.

(** ** The functions of a bus *)
Fixpoint mps_walk (m : Z) (root : bool) (x : hfn) (l : list hw) : hfn * list hw :=
  match l with
  | [] => (x, [])
  | z :: r =>
    let '(a, b) := mps_step m root (h_exp x) (h_mps x) (h_exp (hw_fn z)) (h_mps (hw_fn z)) in
    let '(x', r') := mps_walk m root (put_mps a x) r in (x', set_fn (put_mps b) z :: r')
  end.
Lemma mps_walk_app root x g r :
  mps_walk m root x (g ++ r) = (let '(x1, g1) := mps_walk m root x g in let '(x2, r2) := mps_walk m root x1 r in (x2, g1 ++ r2)).
Proof.
  revert x. induction g as [|z g IH]; intros x; cbn [app mps_walk].
  - destruct (mps_walk m root x r); reflexivity.
  - destruct (mps_step _ _ _ _ _ _) as [a b]. rewrite IH. destruct (mps_walk m root (put_mps a x) g) as [x1 g1].
    destruct (mps_walk m root x1 r). reflexivity.
Qed.
Lemma mps_step_range x z root : mps_good x -> mps_ok m root z ->
  let '(a, b) := mps_step m root (h_exp x) (h_mps x) (h_exp z) (h_mps z) in 0 <= a <= 5 /\ 0 <= b <= 5.
Proof.
  intros (A & B) ((D & E) & _). unfold mps_step.
  destruct (h_exp z) as [[ty s]|]; [|auto]. destruct (ty =? 9); [auto|]. destruct (ty =? 4); [auto|]. destruct root; [auto|].
  destruct (h_exp x) as [[bty bs]|]; [|auto]. destruct (h_mps z =? h_mps x); [auto|]. destruct (_ && _); lia.
Qed.
(** The bridge keeps all but its payload size. *)
Definition like (x x' : hfn) : Prop := exists v, x' = put_mps v x.
Lemma like_refl x : like x x.
Proof. exists (h_mps x). symmetry. apply put_mps_same. Qed.
Lemma like_trans a b c : like a b -> like b c -> like a c.
Proof. intros (v & ->) (w & ->). exists w. reflexivity. Qed.
Lemma ready_like x x' : like x x' -> ready n (Hw x []) -> ready n (Hw x' []).
Proof. intros (v & ->) H. exact H. Qed.
Lemma knows_like x x' : like x x' -> knows br x -> knows br x'.
Proof. intros (v & ->) H. exact H. Qed.
Lemma mps_walk_like root x l : mps_good x -> Forall (fun z => mps_ok m root (hw_fn z)) l ->
  let '(x', l') := mps_walk m root x l in like x x' /\ mps_good x' /\ Forall2 (fun z z' => exists v, 0 <= v <= 5 /\ z' = set_fn (put_mps v) z) l l'.
Proof.
  intros Gx H. revert x Gx. induction H as [|z r Hz _ IH]; intros x Gx; cbn [mps_walk].
  - split; [apply like_refl|]. split; [exact Gx|constructor].
  - pose proof (mps_step_range x (hw_fn z) root Gx Hz) as R. destruct (mps_step _ _ _ _ _ _) as [a b]. destruct R as (Ra & Rb).
    specialize (IH (put_mps a x)). destruct (mps_walk m root (put_mps a x) r) as [x' r'].
    destruct IH as (I1 & I2 & I3); [split; [exact Ra|exact (proj2 Gx)]|].
    split; [apply like_trans with (put_mps a x); [exists a; reflexivity|exact I1]|]. split; [exact I2|].
    constructor; [exists b; auto|exact I3].
Qed.

Fixpoint upfrom (a : Z) (k : nat) : list Z := match k with O => [] | S k => a :: upfrom (a + 1) k end.
Definition before (d f : Z) (z : hw) : Prop := h_d (hw_fn z) < d \/ (h_d (hw_fn z) = d /\ h_f (hw_fn z) < f).
Definition after (d f : Z) (z : hw) : Prop := d < h_d (hw_fn z) \/ (h_d (hw_fn z) = d /\ f < h_f (hw_fn z)).
Lemma not_at d f z : h_d (hw_fn z) <> d \/ h_f (hw_fn z) <> f -> is_at d f z = false.
Proof. unfold is_at. lia. Qed.
Lemma clear_before d f f' l : f <= f' -> Forall (before d f) l -> clear_of d f' l.
Proof. intros L. apply Forall_impl. intros z H. apply not_at. unfold before in H. lia. Qed.
Lemma clear_after d f l : Forall (after d f) l -> clear_of d f l.
Proof. apply Forall_impl. intros z H. apply not_at. unfold after in H. lia. Qed.
Definition usable (x : hfn) : Prop := no_device (h_id x) = false.
Definition known (z : hw) : pfn := pfn_of n (h_d (hw_fn z)) (h_f (hw_fn z)) (hw_fn z).
Lemma get_focus x l d f : ready n (Hw x []) -> hw_get n d f (C (Hw x l)) = option_map hw_fn (find (is_at d f) l).
Proof. intros (A & B & D). rewrite (fo_get C n br F); [apply get_here; exact B|repeat split; auto|lia]. Qed.
Lemma before_set d f v z : before d f (set_fn (put_mps v) z) <-> before d f z.
Proof. destruct z; reflexivity. Qed.

Lemma setup_ok x pre z post d f :
  ready n (Hw x []) -> knows br x -> mps_good x -> Forall (before d f) pre -> is_at d f z = true -> mps_ok m (is_root br) (hw_fn z) ->
  let '(a, b) := mps_step m (is_root br) (h_exp x) (h_mps x) (h_exp (hw_fn z)) (h_mps (hw_fn z)) in
  setup m br n d f (hw_fn z) (C (Hw x (pre ++ z :: post))) = Ok (C (Hw (put_mps a x) (pre ++ set_fn (put_mps b) z :: post)), known z).
Proof.
  intros R K Gx B At Ok'. pose proof (configure_mps_ok x pre z post (known z) d f R K Gx) as H.
  apply is_at_true in At. destruct At as (E1 & E2).
  specialize (H (clear_before d f f pre (Z.le_refl f) B) (proj2 (is_at_true d f z) (conj E1 E2))).
  unfold setup. unfold known in *. rewrite E1, E2 in *. specialize (H eq_refl eq_refl Ok').
  destruct (mps_step _ _ _ _ _ _) as [a b]. cbn zeta. rewrite H. reflexivity.
Qed.
Lemma before_weaken d f f' l : f <= f' -> Forall (before d f) l -> Forall (before d f') l.
Proof. intros L. apply Forall_impl. unfold before. intros. lia. Qed.

Lemma scan_functions_ok d rest : Forall (after d 7) rest -> forall k f g pre x, 0 <= f -> f + Z.of_nat k = 8 ->
  ready n (Hw x []) -> knows br x -> mps_good x -> Forall (before d f) pre ->
  StronglySorted (fun a b => key a < key b) g -> Forall (fun z => h_d (hw_fn z) = d /\ f <= h_f (hw_fn z) < 8) g ->
  Forall (fun z => usable (hw_fn z) /\ mps_ok m (is_root br) (hw_fn z)) g ->
  Forall (fun z => h_multi (hw_fn z) = true) g \/ (exists z, g = [z]) ->
  let '(x', g') := mps_walk m (is_root br) x g in
  scan_functions m br n d (upfrom f k) (C (Hw x (pre ++ g ++ rest))) = Ok (C (Hw x' (pre ++ g' ++ rest)), map known g).
Proof.
  intros Hrest. induction k as [|k IH]; intros f g pre x Hf Hk R K Gx B So Hd Hu Mu; cbn [upfrom].
  - destruct g as [|z g]; [cbn; reflexivity|]. inversion Hd; subst. lia.
  - cbn [scan_functions]. rewrite get_focus by exact R. rewrite find_clear by (apply clear_before with f; [lia|exact B]).
    destruct g as [|z g].
    + cbn [app]. rewrite find_clear_none.
      2:{ revert Hrest. apply Forall_impl. intros z. unfold after. intros. apply not_at. lia. }
      cbn [option_map]. apply (IH (f + 1) [] pre x); auto; try lia. apply before_weaken with f; [lia|exact B].
    + inversion Hd as [|? ? (Ed & Ef) Hd']; subst. inversion Hu as [|? ? (Uz & Mz) Hu']; subst. inversion So as [|? ? So' Sz]; subst.
      destruct (Z.eq_dec (h_f (hw_fn z)) f) as [<-|Nf].
      * cbn [app find]. rewrite (proj2 (is_at_true _ _ z)) by auto. cbn [option_map].
        replace (h_id (hw_fn z) =? 4294967295) with false by (unfold usable, no_device in Uz; lia).
        cbn [mps_walk].
        pose proof (setup_ok x pre z (g ++ rest) (h_d (hw_fn z)) (h_f (hw_fn z)) R K Gx B (proj2 (is_at_true _ _ z) (conj eq_refl eq_refl)) Mz) as SU.
        pose proof (mps_step_range x (hw_fn z) (is_root br) Gx Mz) as Rg.
        destruct (mps_step _ _ _ _ _ _) as [a b]. rewrite SU. cbn [bind known p_multi pfn_of].
        destruct (h_multi (hw_fn z)) eqn:Em.
        -- specialize (IH (h_f (hw_fn z) + 1) g (pre ++ [set_fn (put_mps b) z]) (put_mps a x)).
           destruct (mps_walk m (is_root br) (put_mps a x) g) as [x' g'].
           rewrite <- !app_assoc in IH. cbn [app] in IH. rewrite IH; auto.
           ++ lia.
           ++ lia.
           ++ split; [exact (proj1 Rg)|exact (proj2 Gx)].
           ++ apply Forall_app. split; [apply before_weaken with (h_f (hw_fn z)); [lia|exact B]|].
              constructor; [|constructor]. right. destruct z; cbn; lia.
           ++ rewrite Forall_forall in Sz, Hd' |- *. intros w Hw. specialize (Sz w Hw). specialize (Hd' w Hw). unfold key in Sz. lia.
           ++ destruct Mu as [Mu|(z' & Mu)]; [inversion Mu; auto|]. injection Mu as _ ->. left. constructor.
        -- destruct Mu as [Mu|(z' & Mu)]; [inversion Mu; congruence|]. injection Mu as _ ->. cbn. reflexivity.
      * rewrite find_clear_none.
        2:{ change ((z :: g) ++ rest) with (z :: (g ++ rest)). constructor; [apply not_at; lia|]. apply Forall_app. split.
            - rewrite Forall_forall in Sz, Hd' |- *. intros w Hw. specialize (Sz w Hw). specialize (Hd' w Hw). apply not_at. unfold key in Sz. lia.
            - revert Hrest. apply Forall_impl. intros w. unfold after. intros. apply not_at. lia. }
        cbn [option_map]. apply (IH (f + 1) (z :: g) pre x); auto; try lia.
        -- apply before_weaken with f; [lia|exact B].
        -- rewrite Forall_forall in Sz, Hd |- *. intros w [<-|Hw]; [lia|]. specialize (Sz w Hw).
           pose proof (Hd w (or_intror Hw)). unfold key in Sz. lia.
Qed.

Lemma group d post : Forall (fun z => d <= h_d (hw_fn z)) post -> StronglySorted (fun a b => key a < key b) post ->
  Forall (fun z => 0 <= h_f (hw_fn z) < 8) post ->
  exists g rest, post = g ++ rest /\ Forall (fun z => h_d (hw_fn z) = d) g /\ Forall (fun z => d + 1 <= h_d (hw_fn z)) rest.
Proof.
  intros H So Hf. induction post as [|z r IH].
  - exists [], []. auto.
  - inversion H as [|? ? H1 H2]; inversion So as [|? ? S1 S2]; inversion Hf as [|? ? F1 F2]; subst.
    destruct IH as (g & rest & -> & A & B); auto.
    destruct (Z.eq_dec (h_d (hw_fn z)) d) as [E|N].
    + exists (z :: g), rest. auto.
    + exists [], (z :: g ++ rest). split; [reflexivity|]. split; [constructor|]. constructor; [lia|].
      rewrite Forall_forall in *. intros w Hw. specialize (S2 w Hw). specialize (F2 w Hw). unfold key in S2. lia.
Qed.
Lemma sorted_app (a b : list hw) : StronglySorted (fun a b => key a < key b) (a ++ b) ->
  StronglySorted (fun a b => key a < key b) a /\ StronglySorted (fun a b => key a < key b) b /\ (forall u v, In u a -> In v b -> key u < key v).
Proof.
  induction a as [|z a IH]; cbn; intros H.
  - split; [constructor|]. split; [exact H|]. intros u v [].
  - inversion H as [|? ? S1 S2]; subst. destruct (IH S1) as (A & B & D). rewrite Forall_forall in S2.
    split; [constructor; [exact A|apply Forall_forall; intros w Hw; apply S2, in_or_app; auto]|].
    split; [exact B|]. intros u v [<-|Hu] Hv; [apply S2, in_or_app; auto|apply D; auto].
Qed.
Lemma find_at d f l z : In z l -> h_d (hw_fn z) = d -> h_f (hw_fn z) = f -> exists w, find (is_at d f) l = Some w /\ In w l.
Proof.
  intros Hz Ed Ef. destruct (find (is_at d f) l) as [w|] eqn:E.
  - exists w. split; [reflexivity|]. apply find_some in E. tauto.
  - apply find_none with (x := z) in E; [|exact Hz]. rewrite (proj2 (is_at_true d f z)) in E by auto. discriminate.
Qed.

Lemma scan_devices_ok k d post pre x : 0 <= d -> d + Z.of_nat k = 32 ->
  ready n (Hw x []) -> knows br x -> mps_good x -> Forall (before d 0) pre ->
  StronglySorted (fun a b => key a < key b) post -> Forall (fun z => d <= h_d (hw_fn z) < 32) post -> Forall (fun z => 0 <= h_f (hw_fn z) < 8) post ->
  Forall (fun z => usable (hw_fn z) /\ mps_ok m (is_root br) (hw_fn z)) post ->
  (n = 0 -> Forall (fun z => 1 <= h_d (hw_fn z)) post) ->
  (forall z, In z post -> exists z0, In z0 post /\ h_d (hw_fn z0) = h_d (hw_fn z) /\ h_f (hw_fn z0) = 0) ->
  (forall z z', In z post -> In z' post -> h_d (hw_fn z) = h_d (hw_fn z') -> h_f (hw_fn z) <> h_f (hw_fn z') -> h_multi (hw_fn z) = true) ->
  (only_one_child br = true -> forall z z', In z post -> In z' post -> h_d (hw_fn z) = h_d (hw_fn z')) ->
  let '(x', post') := mps_walk m (is_root br) x post in
  scan_devices m br n (upfrom d k) (C (Hw x (pre ++ post))) = Ok (C (Hw x' (pre ++ post')), map known post).
Proof.
  revert d post pre x. induction k as [|k IH]; intros d post pre x Hd Hk R K Gx B So Rd Rf Hu H0 Z0 Mu On; cbn [upfrom].
  - destruct post as [|z post]; [cbn; reflexivity|]. inversion Rd; subst. lia.
  - cbn [scan_devices].
    destruct (group d post) as (g & rest & -> & Gg & Gr); auto.
    { revert Rd. apply Forall_impl. intros; lia. }
    destruct (sorted_app _ _ So) as (So1 & So2 & So3).
    apply Forall_app in Rd, Rf, Hu. destruct Rd as (Rd1 & Rd2), Rf as (Rf1 & Rf2), Hu as (Hu1 & Hu2).
    assert (B' : Forall (before (d + 1) 0) (pre ++ map (set_fn (put_mps 0)) g)).
    { apply Forall_app. split.
      - revert B. apply Forall_impl. unfold before. intros; lia.
      - apply Forall_map. revert Gg. apply Forall_impl. intros [y l]; unfold before; cbn; intros; lia. }
    assert (Zr : forall z, In z rest -> exists z0, In z0 rest /\ h_d (hw_fn z0) = h_d (hw_fn z) /\ h_f (hw_fn z0) = 0).
    { intros z Hz. destruct (Z0 z) as (z0 & I0 & E0 & F0); [apply in_or_app; auto|]. exists z0. split; [|auto].
      apply in_app_or in I0. destruct I0 as [I0|I0]; [|exact I0]. rewrite Forall_forall in Gg, Gr. specialize (Gg z0 I0). specialize (Gr z Hz). lia. }
    assert (Rd2' : Forall (fun z => d + 1 <= h_d (hw_fn z) < 32) rest).
    { rewrite Forall_forall in *. intros z Hz. specialize (Rd2 z Hz). specialize (Gr z Hz). lia. }
    destruct ((n =? 0) && (d =? 0)) eqn:E00.
    { destruct g as [|z g].
      - cbn [app]. cbn [app] in H0, Mu, On, So. apply (IH (d + 1) rest pre x); auto; try lia.
        cbn [map] in B'. rewrite app_nil_r in B'. exact B'.
      - assert (n = 0) by lia. specialize (H0 H). inversion H0; inversion Gg; subst. lia. }
    unfold pcie_id_new. replace ((n <? 0) || (n >? 255)) with false by lia. replace ((d <? 0) || (d >? 31)) with false by lia.
    change ((0 <? 0) || (0 >? 7)) with false. cbn [bind].
    unfold read_id. rewrite get_focus by exact R. rewrite find_clear by (apply clear_before with 0; [lia|exact B]).
    destruct g as [|z g].
    + cbn [app]. rewrite find_clear_none by (revert Gr; apply Forall_impl; intros w Hw; apply not_at; lia). cbn [option_map no_device].
      change (no_device 4294967295) with true. cbn [app] in H0, Mu, On, So.
      apply (IH (d + 1) rest pre x); auto; try lia. cbn [map] in B'. rewrite app_nil_r in B'. exact B'.
    + assert (Ez : h_d (hw_fn z) = d) by (inversion Gg; auto).
      destruct (Z0 z) as (z0 & I0 & E0 & F0); [left; reflexivity|].
      destruct (find_at d 0 ((z :: g) ++ rest) z0 I0) as (w & Fw & Iw); [lia|exact F0|]. rewrite Fw. cbn [option_map].
      assert (Uw : no_device (h_id (hw_fn w)) = false).
      { apply in_app_or in Iw. rewrite Forall_forall in Hu1, Hu2. destruct Iw as [Iw|Iw]; [apply Hu1|apply Hu2]; exact Iw. }
      rewrite Uw.
      assert (Ar : Forall (after d 7) rest) by (revert Gr; apply Forall_impl; intros; left; lia).
      pose proof (scan_functions_ok d rest Ar 8 0 (z :: g) pre x (Z.le_refl 0) eq_refl R K Gx B So1) as SF.
      assert (Hm2 : Forall (fun z => h_multi (hw_fn z) = true) (z :: g) \/ (exists z1, z :: g = [z1])).
      { destruct g as [|z2 g]; [right; exists z; reflexivity|]. left. apply Forall_forall. intros u Hu.
        assert (exists u', In u' (z :: z2 :: g) /\ key u <> key u') as (u' & Iu' & Nk).
        { inversion So1 as [|? ? _ Sz]; subst. rewrite Forall_forall in Sz. destruct Hu as [<-|Hu].
          - exists z2. split; [right; left; reflexivity|]. specialize (Sz z2 (or_introl eq_refl)). lia.
          - exists z. split; [left; reflexivity|]. specialize (Sz u Hu). lia. }
        rewrite Forall_forall in Gg. pose proof (Gg u Hu). pose proof (Gg u' Iu').
        apply (Mu u u'); [apply in_or_app; left; exact Hu|apply in_or_app; left; exact Iu'|lia|]. unfold key in Nk. lia. }
      assert (Hd3 : Forall (fun z => h_d (hw_fn z) = d /\ 0 <= h_f (hw_fn z) < 8) (z :: g)).
      { rewrite Forall_forall in *. intros u Hu. split; [apply Gg; exact Hu|apply Rf1; exact Hu]. }
      specialize (SF Hd3 Hu1 Hm2).
      rewrite mps_walk_app.
      pose proof (mps_walk_like (is_root br) x (z :: g) Gx) as WL.
      destruct (mps_walk m (is_root br) x (z :: g)) as [x1 g1].
      destruct WL as (L1 & L2 & L3); [revert Hu1; apply Forall_impl; tauto|].
      change (zrange 8) with (upfrom 0 8). rewrite SF. cbn [bind].
      destruct (only_one_child br) eqn:Eo.
      * destruct rest as [|r rest].
        -- cbn [mps_walk]. rewrite !app_nil_r. reflexivity.
        -- exfalso. specialize (On eq_refl z r (or_introl eq_refl)). inversion Gr; subst.
           assert (h_d (hw_fn z) = h_d (hw_fn r)) by (apply On; apply in_or_app; right; left; reflexivity). lia.
      * specialize (IH (d + 1) rest (pre ++ g1) x1).
        destruct (mps_walk m (is_root br) x1 rest) as [x2 r2].
        rewrite <- !app_assoc in IH. rewrite IH; auto; try lia.
        -- cbn [bind]. rewrite map_app. reflexivity.
        -- apply (ready_like x); auto.
        -- apply (knows_like x); auto.
        -- apply Forall_app. split; [revert B; apply Forall_impl; unfold before; intros; lia|].
           clear -Gg L3. revert Gg. induction L3 as [|u v r r' (t & _ & ->) _ IHL]; intros G; constructor; inversion G; subst; auto.
           left. destruct u. cbn. cbn in *. lia.
        -- intros En. specialize (H0 En). apply Forall_app in H0. tauto.
        -- intros u v Iu Iv. apply Mu; apply in_or_app; auto.
Qed.
End One.

(** ** What a scan does to a tree *)
Inductive bus_done (m : Z) : bool -> Z -> hw -> hw -> list (pfn * option pbus) -> Z -> Prop :=
| bus_done_intro : forall root n x l x' l' l'' ds last, mps_walk m root x l = (x', l') -> kids_done m n n l' l'' ds last ->
    bus_done m root n (Hw x l) (Hw x' l'') ds last
with kids_done (m : Z) : Z -> Z -> list hw -> list hw -> list (pfn * option pbus) -> Z -> Prop :=
| kids_nil : forall n last, kids_done m n last [] [] [] last
| kids_fn : forall n last z l l' ds last', is_bridge (hw_fn z) = false -> hw_below z = [] -> kids_done m n last l l' ds last' ->
    kids_done m n last (z :: l) (z :: l') ((known n z, None) :: ds) last'
| kids_bridge : forall n last z z' ds1 last1 l l' ds last', is_bridge (hw_fn z) = true ->
    bus_done m false (last + 1) (set_fn (put_buses n (last + 1) 255) z) z' ds1 last1 -> kids_done m n last1 l l' ds last' ->
    kids_done m n last (z :: l) (set_fn (put_buses n (last + 1) last1) z' :: l') ((known n z, Some (PBus (last + 1) n last1 ds1)) :: ds) last'.
Scheme bus_ind := Minimality for bus_done Sort Prop with kids_ind := Minimality for kids_done Sort Prop.
Combined Scheme done_ind from bus_ind, kids_ind.

Definition sum_bridges (l : list hw) : Z := fold_right (fun z a => bridges z + a) 0 l.
Lemma bridges_eq x l : bridges (Hw x l) = (if is_bridge x then 1 else 0) + sum_bridges l.
Proof. reflexivity. Qed.
Lemma bridges_set g z : is_bridge (g (hw_fn z)) = is_bridge (hw_fn z) -> bridges (set_fn g z) = bridges z.
Proof. destruct z as [x l]. cbn [set_fn hw_fn]. intros E. rewrite !bridges_eq, E. reflexivity. Qed.
Lemma bridges_nonneg y : 0 <= bridges y.
Proof.
  induction y as [x l H] using hw_rect'. rewrite bridges_eq. enough (0 <= sum_bridges l) by (destruct (is_bridge x); lia).
  induction H as [|z r A _ B]; cbn; [lia|]. change (0 <= bridges z + sum_bridges r). lia.
Qed.
Lemma sum_nonneg l : 0 <= sum_bridges l.
Proof. induction l as [|z r IH]; cbn; [lia|]. pose proof (bridges_nonneg z). fold (sum_bridges r). lia. Qed.
Lemma mps_walk_bridges m root l : forall x x' l', mps_walk m root x l = (x', l') -> sum_bridges l' = sum_bridges l.
Proof.
  induction l as [|z r IH]; intros x x' l'; cbn [mps_walk].
  - intros E. injection E as <- <-. reflexivity.
  - destruct (mps_step _ _ _ _ _ _) as [a b]. destruct (mps_walk m root (put_mps a x) r) as [x1 r1] eqn:E1.
    intros E. injection E as <- <-. cbn. fold (sum_bridges r1) (sum_bridges r). rewrite (IH _ _ _ E1), bridges_set; reflexivity.
Qed.
Lemma done_count m :
  (forall root n y y' ds last, bus_done m root n y y' ds last -> last = n + sum_bridges (hw_below y)) /\
  (forall n k l l' ds last, kids_done m n k l l' ds last -> last = k + sum_bridges l).
Proof.
  apply done_ind; intros.
  - cbn [hw_below]. rewrite H1, (mps_walk_bridges _ _ _ _ _ _ H). reflexivity.
  - cbn. lia.
  - subst. cbn. fold (sum_bridges l). destruct z as [x lz]. cbn [hw_fn hw_below] in *. subst lz. rewrite bridges_eq, H. cbn. lia.
  - subst. cbn. fold (sum_bridges l). destruct z as [x lz]. cbn [hw_fn hw_below set_fn] in *. rewrite bridges_eq, H. lia.
Qed.

(** ** The scan of a tree *)
Definition no_root_port (y : hw) : Prop := Forall (fun z => ~ port_type (hw_fn z) 4) (hw_below y).
Definition good_kid (z : hw) : Prop := hw_all good_node z /\ hw_all no_root_port z.
Definition scans (m : Z) (y : hw) : Prop := forall x C n br fuel, let l := hw_below y in
  focus C n br -> ready n (Hw x []) -> knows br x -> mps_good x -> 0 <= n <= 255 -> 257 <= n + Z.of_nat fuel ->
  good_bus x l -> Forall good_kid l -> Forall (fun z => mps_ok m (is_root br) (hw_fn z)) l -> (n = 0 -> Forall (fun z => 1 <= h_d (hw_fn z)) l) ->
  if n + sum_bridges l <=? 255 then
    exists y' ds last, scan fuel m br n (C (Hw x l)) = Ok (C y', ds, last) /\ bus_done m (is_root br) n (Hw x l) y' ds last
  else scan fuel m br n (C (Hw x l)) = Err ValueError.

Lemma devices_over m br ds h : scan_devices m br 256 (0 :: ds) h = Err ValueError.
Proof. reflexivity. Qed.
Lemma zrange32 : zrange 32 = 0 :: upfrom 1 31.
Proof. reflexivity. Qed.
Lemma scan_over fuel m br h : fuel <> O -> scan fuel m br 256 h = Err ValueError.
Proof. destruct fuel as [|fuel]; [congruence|]. intros _. cbn [scan]. rewrite zrange32, devices_over. reflexivity. Qed.
Lemma scan_kids m C n br fuel x : 0 <= m <= 5 -> focus C n br -> ready n (Hw x []) -> 0 <= n -> forall post pre last,
  Forall (scans m) post -> StronglySorted (fun a b => key a < key b) (pre ++ post) ->
  Forall (fun z => 0 <= h_f (hw_fn z) < 8) (pre ++ post) ->
  Forall (fun z => h_sub (hw_fn z) <= last) pre -> n <= last <= 255 -> 256 <= n + Z.of_nat fuel ->
  Forall (fun z => mps_good (hw_fn z) /\ good_kid z /\ (h_type (hw_fn z) = 0 \/ h_type (hw_fn z) = 1) /\ h_sub (hw_fn z) = 0) post ->
  if last + sum_bridges post <=? 255 then
  exists post' ds last', scan_bridges (fun p => scan fuel m (Some p)) n (map (known n) post) last (C (Hw x (pre ++ post))) = Ok (C (Hw x (pre ++ post')), ds, last')
    /\ kids_done m n last post post' ds last'
  else scan_bridges (fun p => scan fuel m (Some p)) n (map (known n) post) last (C (Hw x (pre ++ post))) = Err ValueError.
Proof.
  intros Hm F R Hn. induction post as [|z post IH]; intros pre last Sc So Rf Up Hl Hfu Hg.
  - cbn [sum_bridges fold_right]. replace (last + 0 <=? 255) with true by lia. exists [], [], last. split; [reflexivity|constructor].
  - inversion Sc as [|? ? Sz Sc']; subst. inversion Hg as [|? ? (Gz & Gk & Gt & Gs) Hg']; subst. cbn [map scan_bridges].
    change (sum_bridges (z :: post)) with (bridges z + sum_bridges post). pose proof (bridges_nonneg z) as Bz. pose proof (sum_nonneg post) as Bp.
    destruct (sorted_app _ _ So) as (_ & _ & So3).
    assert (Fz : 0 <= h_f (hw_fn z) < 8) by (apply Forall_app in Rf; destruct Rf as (_ & Rf); inversion Rf; auto).
    assert (Cl : clear_of (h_d (hw_fn z)) (h_f (hw_fn z)) pre).
    { apply Forall_forall. intros w Hw. apply not_at. specialize (So3 w z Hw (or_introl eq_refl)). unfold key in So3.
      assert (0 <= h_f (hw_fn w) < 8) by (rewrite Forall_forall in Rf; apply Rf, in_or_app; auto). lia. }
    assert (So' : forall w, h_d (hw_fn w) = h_d (hw_fn z) -> h_f (hw_fn w) = h_f (hw_fn z) -> StronglySorted (fun a b => key a < key b) ((pre ++ [w]) ++ post)).
    { intros w E1 E2. assert (Ek : key w = key z) by (unfold key; lia). rewrite <- app_assoc. cbn [app]. clear -So Ek.
      induction pre as [|u pre IH]; cbn in *.
      - inversion So; subst. constructor; [auto|]. rewrite Ek. auto.
      - inversion So as [|? ? A B]; subst. constructor; [auto|]. apply Forall_app in B. destruct B as (B1 & B2).
        apply Forall_app. split; [exact B1|]. inversion B2; subst. constructor; [lia|auto]. }
    assert (Rf' : forall w, h_f (hw_fn w) = h_f (hw_fn z) -> Forall (fun z => 0 <= h_f (hw_fn z) < 8) ((pre ++ [w]) ++ post)).
    { intros w E2. rewrite <- app_assoc. apply Forall_app in Rf. destruct Rf as (Rf1 & Rf2). apply Forall_app. split; [exact Rf1|].
      inversion Rf2; subst. cbn. constructor; [lia|auto]. }
    change (p_is_bridge (known n z)) with (is_bridge (hw_fn z)).
    destruct (is_bridge (hw_fn z)) eqn:Eb.
    + set (p := known n z). set (k := last + 1).
      assert (B1 : 1 <= bridges z) by (destruct z as [xz lz]; rewrite bridges_eq; cbn in Eb; rewrite Eb; pose proof (sum_nonneg lz); lia).
      assert (W1 : p_at (hw_map (put_buses n k 255)) p (C (Hw x (pre ++ z :: post))) = C (Hw x (pre ++ set_fn (put_buses n k 255) z :: post))).
      { unfold p_at, p, known, pfn_of. cbn [p_id bus device func]. destruct R as (R1 & R2 & R3).
        rewrite (fo_map C n br F); [|repeat split; auto|lia]. f_equal. apply map_here; [exact R2|exact Cl|apply is_at_true; auto]. }
      rewrite W1. clear W1.
      destruct (Z.eq_dec last 255) as [El|El].
      { replace (last + (bridges z + sum_bridges post) <=? 255) with false by lia.
        unfold k. rewrite El. change (255 + 1) with 256. rewrite scan_over; [reflexivity|]. intros ->. lia. }
      pose proof (focus_below C n br x pre post p k F R) as F'.
      specialize (F' ltac:(unfold k; lia) ltac:(unfold k; lia) eq_refl Cl).
      assert (Un : forall b, k <= b -> unclaimed b pre).
      { intros b Hb. revert Up. apply Forall_impl. intros w Hw. unfold claims_bus. unfold k in Hb. lia. }
      specialize (F' Un).
      destruct z as [xz lz]. cbn [set_fn hw_fn hw_below] in *.
      unfold scans in Sz. cbn [hw_below] in Sz.
      rewrite bridges_eq, Eb. pose proof (sum_nonneg lz) as Bl.
      assert (SC : if k + sum_bridges lz <=? 255 then
         exists y' ds last, scan fuel m (Some p) k (C (Hw x (pre ++ Hw (put_buses n k 255 xz) lz :: post))) = Ok (C (Hw x (pre ++ y' :: post)), ds, last) /\
           bus_done m false k (Hw (put_buses n k 255 xz) lz) y' ds last
       else scan fuel m (Some p) k (C (Hw x (pre ++ Hw (put_buses n k 255 xz) lz :: post))) = Err ValueError).
      { apply (Sz (put_buses n k 255 xz) _ k (Some p) fuel F').
        * repeat split; auto.
        * split; [reflexivity|split; reflexivity].
        * exact Gz.
        * unfold k; lia.
        * unfold k; lia.
        * destruct Gk as (Gk & _). apply hw_all_eq in Gk. destruct Gk as (Gk & _). exact (proj2 Gk).
        * destruct Gk as (Gk1 & Gk2). apply hw_all_eq in Gk1, Gk2. destruct Gk1 as (_ & Gk1), Gk2 as (_ & Gk2).
          rewrite Forall_forall in *. intros w Hw. split; auto.
        * destruct Gk as (Gk1 & Gk2). apply hw_all_eq in Gk1, Gk2. destruct Gk1 as (Gk1 & _), Gk2 as (Gk2 & _).
          destruct Gk1 as (_ & _ & Gf & _). unfold no_root_port in Gk2. cbn [hw_fn hw_below] in Gf, Gk2.
          rewrite Forall_forall in Gf, Gk2 |- *. intros w Hw. specialize (Gf w Hw). specialize (Gk2 w Hw).
          split; [|exact Gk2]. unfold good_fn in Gf. split; tauto.
        * unfold k; lia. }
      destruct (k + sum_bridges lz <=? 255) eqn:Ec.
      2:{ rewrite SC. replace (last + _ <=? 255) with false by (unfold k in Ec; lia). reflexivity. }
      destruct SC as (y' & ds & last1 & E & D). rewrite E. cbn [bind].
      pose proof (proj1 (done_count m) _ _ _ _ _ _ D) as Cn. cbn [hw_below] in Cn.
      assert (Ly : exists v l', y' = Hw (put_mps v (put_buses n k 255 xz)) l').
      { inversion D; subst. destruct Gk as (Gk1 & Gk2). apply hw_all_eq in Gk1, Gk2. destruct Gk1 as (Gk1 & _), Gk2 as (Gk2 & _).
        destruct Gk1 as (_ & _ & Gf & _). unfold no_root_port in Gk2. cbn [hw_fn hw_below] in Gf, Gk2.
        pose proof (mps_walk_like m Hm false (put_buses n k 255 xz) lz Gz) as WL.
        match goal with H : mps_walk _ _ _ _ = _ |- _ => cbn [is_root] in H; rewrite H in WL end.
        destruct WL as ((v & ->) & _ & _); [|eauto].
        rewrite Forall_forall in Gf, Gk2 |- *. intros w Hw. specialize (Gf w Hw). specialize (Gk2 w Hw).
        split; [|exact Gk2]. unfold good_fn in Gf. split; tauto. }
      destruct Ly as (v & l' & ->).
      rewrite (fo_set _ k (Some p) F' (put_buses n k last1) p) by (first [reflexivity|split; reflexivity]).
      set (w := set_fn (put_buses n k last1) (Hw (put_mps v (put_buses n k 255 xz)) l')).
      specialize (IH (pre ++ [w]) last1 Sc' (So' w eq_refl eq_refl) (Rf' w eq_refl)).
      assert (Up' : Forall (fun z => h_sub (hw_fn z) <= last1) (pre ++ [w])).
      { apply Forall_app. split; [revert Up; apply Forall_impl; intros; unfold k in *; lia|].
        constructor; [cbn; lia|constructor]. }
      specialize (IH Up' ltac:(unfold k in *; lia) Hfu Hg').
      rewrite <- !app_assoc in IH. cbn [app] in IH.
      replace (last + _ <=? 255) with (last1 + sum_bridges post <=? 255) by (unfold k in *; lia).
      destruct (last1 + sum_bridges post <=? 255).
      * destruct IH as (post' & ds' & last' & E' & D'). rewrite <- app_assoc in E'. cbn [app] in E'. rewrite E'. cbn [bind].
        eexists _, _, _. split; [reflexivity|]. unfold w, p, k. apply (kids_bridge m n last (Hw xz lz)); auto.
      * rewrite IH. reflexivity.
    + specialize (IH (pre ++ [z]) last Sc' (So' z eq_refl eq_refl) (Rf' z eq_refl)).
      assert (Up' : Forall (fun z => h_sub (hw_fn z) <= last) (pre ++ [z])).
      { apply Forall_app. split; [exact Up|]. constructor; [lia|constructor]. }
      specialize (IH Up' Hl Hfu Hg'). rewrite <- !app_assoc in IH. cbn [app] in IH.
      assert (Lz : hw_below z = []).
      { destruct Gk as (Gk & _). destruct z as [xz lz]. apply hw_all_eq in Gk. destruct Gk as ((Gk & _) & _). apply Gk.
        cbn in *. unfold is_bridge in Eb. lia. }
      replace (bridges z) with 0 by (destruct z as [xz lz]; cbn in Lz, Eb; subst lz; cbn; rewrite Eb; reflexivity).
      replace (last + _ <=? 255) with (last + sum_bridges post <=? 255) by lia.
      destruct (last + sum_bridges post <=? 255).
      * destruct IH as (post' & ds & last' & E & D). rewrite <- app_assoc in E. cbn [app] in E. rewrite E. cbn [bind].
        eexists _, _, _. split; [reflexivity|]. apply kids_fn; auto.
      * rewrite IH. reflexivity.
Qed.

Lemma zrange_upfrom a k : map Z.of_nat (List.seq a k) = upfrom (Z.of_nat a) k.
Proof. revert a. induction k as [|k IH]; intros a; cbn; [reflexivity|]. rewrite IH. f_equal. f_equal. lia. Qed.
Lemma usable_good x : good_fn x -> usable x.
Proof.
  intros (_ & _ & H & _). unfold usable, no_device. cbn in H.
  repeat match goal with |- context [?a =? ?b] => destruct (Z.eqb_spec a b); [exfalso; apply H; lia|] end. reflexivity.
Qed.
Lemma scan_tree m : 0 <= m <= 5 -> forall y, scans m y.
Proof.
  intros Hm. induction y as [x0 l0 IH] using hw_rect'.
  intros x C n br fuel l F R K Gx Hn Hfu (So & Gf & Z0 & Mu & On) Gk Mo Hr.
  cbn [hw_below] in l. subst l. pose proof (sum_nonneg l0) as Bl.
  destruct fuel as [|fuel]; [lia|]. cbn [scan].
  change (zrange 32) with (upfrom 0 32).
  pose proof (scan_devices_ok C n br m F Hn Hm 32 0 l0 [] x (Z.le_refl 0) eq_refl R K Gx (Forall_nil _) So) as SD.
  pose proof (mps_walk_like m Hm (is_root br) x l0 Gx Mo) as WL.
  destruct (mps_walk m (is_root br) x l0) as [x' l'] eqn:EW. destruct WL as (L1 & L2 & L3).
  cbn [app] in SD. rewrite SD; auto.
  - cbn [bind].
    assert (Ekn : map (known n) l0 = map (known n) l').
    { clear -L3. induction L3 as [|[u lu] v r r' (t & _ & ->) _ IHL]; cbn; [reflexivity|]. rewrite IHL. reflexivity. }
    rewrite Ekn.
    assert (T : forall (Q : hw -> Prop), (forall v z, 0 <= v <= 5 -> Q z -> Q (set_fn (put_mps v) z)) -> Forall Q l0 -> Forall Q l').
    { intros Q HQ. clear -L3 HQ. induction L3 as [|u v r r' (t & Rt & ->) _ IHL]; intros H; inversion H; subst; constructor; auto. }
    assert (A1 : Forall (scans m) l') by (revert IH; apply T; intros v [u lu] _ H; exact H).
    assert (A2 : StronglySorted (fun a b => key a < key b) l').
    { clear -So L3. induction L3 as [|[u lu] v r r' (t & _ & ->) L3 IHL]; [constructor|].
      inversion So as [|? ? A B]; subst. constructor; [auto|]. clear -B L3. induction L3 as [|[w lw] v r r' (s & _ & ->) _ IHL]; inversion B; subst; constructor; auto. }
    assert (A3 : Forall (fun z => 0 <= h_f (hw_fn z) < 8) l').
    { assert (X : Forall (fun z => 0 <= h_f (hw_fn z) < 8) l0) by (revert Gf; apply Forall_impl; unfold good_fn; tauto).
      revert X. apply T. intros v [u lu] _ H. exact H. }
    assert (A4 : Forall (fun z => mps_good (hw_fn z) /\ good_kid z /\ (h_type (hw_fn z) = 0 \/ h_type (hw_fn z) = 1) /\ h_sub (hw_fn z) = 0) l').
    { assert (X : Forall (fun z => mps_good (hw_fn z) /\ good_kid z /\ (h_type (hw_fn z) = 0 \/ h_type (hw_fn z) = 1) /\ h_sub (hw_fn z) = 0) l0).
      { rewrite Forall_forall in *. intros z Hz. specialize (Gf z Hz). unfold good_fn in Gf. unfold mps_good. specialize (Gk z Hz). tauto. }
      revert X. apply T. intros v [u lu] Hv ((B1 & B2) & (B3 & B4) & B5 & B6). split; [split; [exact Hv|exact B2]|]. split; [split; [exact B3|exact B4]|]. split; [exact B5|exact B6]. }
    pose proof (scan_kids m C n br fuel x' Hm F (ready_like n x x' L1 R) (proj1 Hn) l' [] n A1 A2 A3 (Forall_nil _) ltac:(lia) ltac:(lia) A4) as SK.
    rewrite (mps_walk_bridges _ _ _ _ _ _ EW) in SK. cbn [app] in SK.
    destruct (n + sum_bridges l0 <=? 255); [|exact SK].
    destruct SK as (post' & ds & last & E & D). rewrite E. eexists _, _, _. split; [reflexivity|]. econstructor; [exact EW|exact D].
  - revert Gf. apply Forall_impl. unfold good_fn. intros; lia.
  - revert Gf. apply Forall_impl. unfold good_fn. intros; lia.
  - rewrite Forall_forall in *. intros z Hz. split; [apply usable_good; auto|auto].
  - intros Eo. apply On. destruct br as [b|]; [|discriminate]. destruct K as (Ke & _). cbn in Eo. rewrite Ke in Eo.
    destruct (h_exp x) as [[ty s]|] eqn:Ex; [|discriminate]. unfold port_type. rewrite Ex.
    assert (ty = 4 \/ ty = 6 \/ ty = 8) as [->|[->| ->]] by lia; eauto.
Qed.
