(** Configuration requests and completions in a tree that is enumerated. *)
From Verif Require Import Base BaseProofs ModelUtils ModelTlp ModelAttrs ModelCapList ModelConfig ModelFunction ModelRoute ModelEnum SpecBar SpecRoute
  SpecEnum ModelTree SpecTree ProofsUtils ProofsRoute ProofsEnum ProofsEnumFacts ProofsMps.

Lemma go_numbered n l l' :
  (fix go (l : list hw) (l' : list net) : Prop := match l, l' with [], [] => True | y :: l, z :: l' => numbered n y z /\ go l l' | _, _ => False end) l l' <-> Forall2 (numbered n) l l'.
Proof.
  revert l'. induction l as [|a k IH]; intros [|z l].
  - split; intros; [constructor|exact Logic.I].
  - split; intros H; [destruct H|inversion H].
  - split; intros H; [destruct H|inversion H].
  - split.
    + intros [H1 H2]. constructor; [exact H1|]. apply IH. exact H2.
    + intros H. inversion H; subst. split; [assumption|]. apply IH. assumption.
Qed.
Lemma numbered_eq n x l f br l' : numbered n (Hw x l) (Net f br l') <->
  f_id f = mkId n (h_d x) (h_f x) /\ br = is_bridge x /\ (exists lay, laid_out (f_attr f) 0 lay /\ total_slots lay = net_bars br) /\
  (if br then bus_range f = (h_sec x, h_sub x) /\ Forall2 (numbered (h_sec x)) l l' else l = [] /\ l' = []).
Proof. cbn [numbered]. destruct br; [rewrite go_numbered|]; tauto. Qed.

(** A bridge and a function, for what is not routed by address *)
Definition by_id (r : route) : Prop := match r with TAddr _ _ | TNone => False | _ => True end.
Lemma bars_id f n lay r : by_id r -> laid_out (f_attr f) 0 lay -> total_slots lay = n -> bars f n lay r.
Proof. intros B L S. split; [exact L|]. split; [exact S|]. destruct r; try exact Logic.I; destruct B. Qed.
Lemma id_some r : by_id r -> r <> TNone.
Proof. destruct r; try discriminate. intros []. Qed.
Definition own_id (f : fnc) (r : route) : bool := SpecRoute.own f [] r.
Lemma own_eq f lay r : by_id r -> SpecRoute.own f lay r = own_id f r.
Proof. destruct r; try reflexivity; intros []. Qed.
Lemma reach_id_bridge t ty f l lay : tlp_check t = Ok true -> fmt_type t = Ok ty -> by_id (route_of ty t) -> laid_out (f_attr f) 0 lay -> total_slots lay = 2 ->
  reach (Net f true l) t = if own_id f (route_of ty t) then Ok (Some (f, t)) else
    if behind f (route_of ty t) then first_claim (net_claims (as_seen f ty t)) (fun z => reach z (as_seen f ty t)) l else Ok None.
Proof.
  intros C T B L S. cbn [reach]. destruct (upstream_recv t ty f lay C T (id_some _ B) (bars_id _ _ _ _ B L S)) as (f' & E & _). rewrite E. cbn [bind].
  rewrite own_eq by exact B. destruct (own_id f (route_of ty t)); [reflexivity|]. destruct (behind f (route_of ty t)); [reflexivity|]. destruct (non_posted ty); reflexivity.
Qed.
Lemma reach_id_leaf t ty f l lay : fmt_type t = Ok ty -> by_id (route_of ty t) -> laid_out (f_attr f) 0 lay -> total_slots lay = 6 ->
  reach (Net f false l) t = Ok (if own_id f (route_of ty t) then Some (f, t) else None).
Proof. intros T B L S. cbn [reach]. rewrite (match_tlp_spec f 6 lay t ty T (id_some _ B) (bars_id _ _ _ _ B L S)), own_eq by exact B. reflexivity. Qed.
Lemma claims_id t ty n y z : fmt_type t = Ok ty -> by_id (route_of ty t) -> numbered n y z ->
  net_claims t z = Ok (own_id (net_fn z) (route_of ty t) || (is_bridge (hw_fn y) && behind (net_fn z) (route_of ty t))).
Proof.
  intros T B N. destruct y as [x l], z as [f br l']. apply numbered_eq in N. destruct N as (_ & -> & (lay & L & S) & _). cbn [net_claims net_fn hw_fn].
  rewrite (match_tlp_spec f _ lay t ty T (id_some _ B) (bars_id _ _ _ _ B L S)), own_eq by exact B. cbn [bind]. destruct (own_id f _); [reflexivity|].
  destruct (is_bridge x); [|reflexivity]. apply match_secondary_spec; [exact T|exact (id_some _ B)].
Qed.
(** The function itself: it is on bus [n]. *)
Lemma reach_own t ty n y z : tlp_check t = Ok true -> fmt_type t = Ok ty -> by_id (route_of ty t) -> numbered n y z -> own_id (net_fn z) (route_of ty t) = true ->
  reach z t = Ok (Some (net_fn z, t)).
Proof.
  intros C T B N O. destruct y as [x l], z as [f br l']. cbn [net_fn] in *. apply numbered_eq in N. destruct N as (_ & _ & (lay & L & S) & _). destruct br; cbn [net_bars] in S.
  - rewrite (reach_id_bridge t ty f l' lay C T B L S), O. reflexivity.
  - rewrite (reach_id_leaf t ty f l' lay T B L S), O. reflexivity.
Qed.
Lemma net_in z : In (net_fn z) (map fst (net_fns z)).
Proof. destruct z. left. reflexivity. Qed.

Section Ids.
Variables (dst : pcie_id).
Hypothesis D0 : dst <> mkId 0 0 0.
Lemma behind_bus f sec sub : bus_range f = (sec, sub) -> bus_behind f dst = (sec <=? bus dst) && (bus dst <=? sub).
Proof.
  intros E. unfold bus_behind, inw. rewrite E. cbn [fst snd]. destruct (id_eqb dst (mkId 0 0 0)) eqn:Q; [apply id_eqb_ok in Q; contradiction|apply andb_true_r].
Qed.
Definition outcome_id (t' : tlp) (x : option hfn) (o : option (fnc * tlp)) (zs : list net) : Prop :=
  match x, o with
  | Some _, Some (g, t'') => f_id g = dst /\ t'' = t' /\ In g (map fst (flat_map net_fns zs))
  | None, None => True
  | _, _ => False
  end.
Lemma outcome_cons t' x o z zs : outcome_id t' x o zs -> outcome_id t' x o (z :: zs).
Proof. destruct x, o as [[g t'']|]; cbn [outcome_id]; auto. intros (A & B & K). split; [exact A|]. split; [exact B|]. cbn [flat_map]. rewrite map_app. apply in_or_app. right. exact K. Qed.
Lemma outcome_down t' x o f br ks zs : outcome_id t' x o ks -> outcome_id t' x o (Net f br ks :: zs).
Proof.
  destruct x, o as [[g t'']|]; cbn [outcome_id]; auto. intros (A & B & K). split; [exact A|]. split; [exact B|]. cbn [flat_map net_fns app map]. right. rewrite map_app. apply in_or_app. left. exact K.
Qed.

(** Completions, and requests of type 1: on the way.  At the last bus *)
Lemma last_bus t ty t' l : tlp_check t = Ok true -> fmt_type t = Ok ty -> by_id (route_of ty t) -> t' = t ->
  (forall z y, In y l -> numbered (bus dst) y z -> own_id (net_fn z) (route_of ty t) = is_at (device dst) (func dst) y /\
    (is_bridge (hw_fn y) && behind (net_fn z) (route_of ty t)) = false) ->
  forall l', Forall2 (numbered (bus dst)) l l' ->
  exists o, first_claim (net_claims t) (fun z => reach z t) l' = Ok o /\ outcome_id t' (option_map hw_fn (find (is_at (device dst) (func dst)) l)) o l'.
Proof.
  intros C T B -> H l' Z. induction Z as [|y z l l' N Z IH]; [exists None; split; [reflexivity|exact Logic.I]|].
  cbn [first_claim find]. rewrite (claims_id t ty _ y z T B N). destruct (H z y (or_introl eq_refl) N) as [H1 H2]. rewrite H2, orb_false_r, H1. cbn [bind].
  destruct (is_at (device dst) (func dst) y) eqn:A.
  - exists (Some (net_fn z, t)). split; [apply (reach_own t ty _ y z C T B N H1)|]. cbn [option_map outcome_id]. split; [|split; [reflexivity|]].
    + destruct y as [x k], z as [f br k']. apply numbered_eq in N. destruct N as (N & _). cbn [net_fn]. rewrite N. apply is_at_true in A. cbn [hw_fn] in A. destruct A as [-> ->]. destruct dst; reflexivity.
    + cbn [flat_map]. rewrite map_app. apply in_or_app. left. apply net_in.
  - destruct IH as (o & E & O); [intros z' y' I'; apply H; right; exact I'|]. exists o. split; [exact E|]. apply outcome_cons. exact O.
Qed.

(** Before it *)
Lemma on_way t ty t' n l : fmt_type t = Ok ty -> by_id (route_of ty t) ->
  (forall z y, In y l -> numbered n y z -> own_id (net_fn z) (route_of ty t) = false /\
    (is_bridge (hw_fn y) && behind (net_fn z) (route_of ty t)) = claims_bus (bus dst) y) ->
  Forall (fun y => forall z, numbered n y z -> claims_bus (bus dst) y = true -> exists o, reach z t = Ok o /\ outcome_id t' (hw_get (bus dst) (device dst) (func dst) y) o [z]) l ->
  forall l', Forall2 (numbered n) l l' -> forall x, bus dst <> h_sec x ->
  exists o, first_claim (net_claims t) (fun z => reach z t) l' = Ok o /\ outcome_id t' (hw_get (bus dst) (device dst) (func dst) (Hw x l)) o l'.
Proof.
  intros T B H HF l' Z x Hx. cbn [hw_get]. replace (bus dst =? h_sec x) with false by lia. induction Z as [|y z l l' N Z IH]; [exists None; split; [reflexivity|exact Logic.I]|].
  inversion HF as [|? ? HF1 HF2]; subst. cbn [first_claim]. rewrite (claims_id t ty _ y z T B N). destruct (H z y (or_introl eq_refl) N) as [H1 H2]. rewrite H1, H2. cbn [bind orb].
  destruct (claims_bus (bus dst) y) eqn:A.
  - destruct (HF1 z N eq_refl) as (o & E & O). exists o. split; [exact E|]. destruct (hw_get (bus dst) (device dst) (func dst) y), o as [[g t'']|]; cbn [outcome_id] in *; auto.
    destruct O as (O1 & O2 & O3). split; [exact O1|]. split; [exact O2|]. cbn [flat_map] in *. rewrite map_app in *. apply in_app_or in O3. apply in_or_app. left. destruct O3 as [O3|[]]. exact O3.
  - destruct IH as (o & E & O); [intros z' y' I'; apply H; right; exact I'|exact HF2|]. exists o. split; [exact E|]. apply outcome_cons. exact O.
Qed.

(** A request of type 1 *)
Lemma walk_config t ty : tlp_check t = Ok true -> fmt_type t = Ok ty -> route_of ty t = TBus dst -> forall y,
  forall x l, y = Hw x l -> forall f l' lay, bus_range f = (h_sec x, h_sub x) -> laid_out (f_attr f) 0 lay -> total_slots lay = 2 -> Forall2 (numbered (h_sec x)) l l' ->
  h_sec x <= bus dst <= h_sub x ->
  exists o, reach (Net f true l') t = Ok o /\ outcome_id (set_type_ 4 t) (hw_get (bus dst) (device dst) (func dst) y) o l'.
Proof.
  intros C T R. assert (B : by_id (route_of ty t)) by (rewrite R; exact Logic.I).
  assert (CI : completer_id t = dst) by (destruct ty; try discriminate R; injection R as R; exact R).
  induction y as [x0 l0 IH] using hw_rect'. intros x l Ey f l' lay Bf L S Z Hb. injection Ey as <- <-.
  rewrite (reach_id_bridge t ty f l' lay C T B L S), R. cbn [own_id SpecRoute.own behind]. rewrite (behind_bus f _ _ Bf).
  replace ((h_sec x0 <=? bus dst) && (bus dst <=? h_sub x0)) with true by lia. cbn match.
  unfold as_seen. rewrite Bf. cbn [fst]. rewrite CI. destruct (bus dst =? h_sec x0) eqn:Eb.
  - assert (T0 : exists ty', (match ty with CFG_READ_1 | CFG_WRITE_1 => set_type_ 4 t | _ => t end) = set_type_ 4 t /\ tlp_check (set_type_ 4 t) = Ok true /\ fmt_type (set_type_ 4 t) = Ok ty' /\ route_of ty' (set_type_ 4 t) = TLocal dst).
    { destruct ty; try discriminate R.
      - destruct (ProofsRoute.type0 t _ CFG_READ_0 T ltac:(auto)) as (E1 & E2 & E3). rewrite E1 in *. exists CFG_READ_0. split; [reflexivity|]. split; [congruence|]. split; [exact E3|]. cbn [route_of]. destruct t. cbn in *. congruence.
      - destruct (ProofsRoute.type0 t _ CFG_WRITE_0 T ltac:(auto)) as (E1 & E2 & E3). rewrite E1 in *. exists CFG_WRITE_0. split; [reflexivity|]. split; [congruence|]. split; [exact E3|]. cbn [route_of]. destruct t. cbn in *. congruence. }
    destruct T0 as (ty' & -> & C' & T' & R'). rewrite (get_here (bus dst)) by lia. assert (Eq : h_sec x0 = bus dst) by lia. rewrite Eq in Z.
    apply (last_bus (set_type_ 4 t) ty' (set_type_ 4 t) l0 C' T'); [rewrite R'; exact Logic.I|reflexivity| |exact Z].
    intros [g br k] [x k'] _ N. apply numbered_eq in N. destruct N as (N & _). rewrite R'. cbn [own_id SpecRoute.own net_fn behind]. rewrite andb_false_r, N. split; reflexivity.
  - assert (SE : (match ty with CFG_READ_1 | CFG_WRITE_1 => t | _ => t end) = t) by (destruct ty; reflexivity).
    apply (on_way t ty (set_type_ 4 t) (h_sec x0) l0 T B); [| |exact Z|lia].
    + intros [g br k] [x k'] _ N. apply numbered_eq in N. destruct N as (_ & -> & _ & N). rewrite R. cbn [own_id SpecRoute.own net_fn hw_fn behind]. split; [reflexivity|].
      unfold claims_bus. cbn [hw_fn]. destruct (is_bridge x); [|reflexivity]. cbn [andb]. destruct N as [N1 _]. apply (behind_bus g _ _ N1).
    + rewrite Forall_forall in *. intros [x k'] Iy z N Cl. destruct z as [g br k]. apply numbered_eq in N. destruct N as (_ & N0 & (lay' & L' & S') & N).
      apply claims_spec in Cl. cbn [hw_fn] in Cl. destruct Cl as [Cl1 Cl2]. rewrite Cl1 in N0. subst br. destruct N as [N1 N2].
      destruct (IH _ Iy x k' eq_refl g k lay' N1 L' S' N2 Cl2) as (o & E & O). exists o. split; [exact E|]. apply outcome_down. exact O.
Qed.

(** A completion *)
Lemma walk_back t ty : tlp_check t = Ok true -> fmt_type t = Ok ty -> route_of ty t = TBack dst -> forall y,
  forall x l, y = Hw x l -> Forall (hw_all ranged) l -> ordered (h_sec x) l ->
  forall f l' lay, bus_range f = (h_sec x, h_sub x) -> f_id f <> dst -> laid_out (f_attr f) 0 lay -> total_slots lay = 2 -> Forall2 (numbered (h_sec x)) l l' ->
  h_sec x <= bus dst <= h_sub x ->
  exists o, reach (Net f true l') t = Ok o /\ outcome_id t (hw_get (bus dst) (device dst) (func dst) y) o l'.
Proof.
  intros C T R. assert (B : by_id (route_of ty t)) by (rewrite R; exact Logic.I).
  induction y as [x0 l0 IH] using hw_rect'. intros x l Ey Rg Od f l' lay Bf Nf L S Z Hb. injection Ey as <- <-.
  rewrite (reach_id_bridge t ty f l' lay C T B L S), R. cbn [own_id SpecRoute.own behind].
  assert (Ef : id_eqb (f_id f) dst = false) by (apply not_true_iff_false; rewrite id_eqb_ok; exact Nf). rewrite Ef.
  rewrite (behind_bus f _ _ Bf). replace ((h_sec x0 <=? bus dst) && (bus dst <=? h_sub x0)) with true by lia. cbn match.
  assert (SE : as_seen f ty t = t) by (unfold as_seen; destruct (_ =? _); [|reflexivity]; destruct ty; try reflexivity; discriminate R). rewrite SE.
  destruct Od as [_ Od]. rewrite Forall_forall in Od. destruct (bus dst =? h_sec x0) eqn:Eb.
  - rewrite (get_here (bus dst)) by lia. assert (Eq : h_sec x0 = bus dst) by lia. rewrite Eq in Z.
    apply (last_bus t ty t l0 C T B eq_refl); [|exact Z].
    intros [g br k] [x k'] Iy N. apply numbered_eq in N. destruct N as (N & -> & _ & N2). rewrite R. cbn [own_id SpecRoute.own net_fn hw_fn behind]. split.
    + rewrite N. unfold id_eqb, is_at. cbn [bus device func hw_fn]. rewrite Z.eqb_refl. reflexivity.
    + destruct (is_bridge x) eqn:Bx; [|reflexivity]. destruct N2 as [N1 _]. rewrite (behind_bus g _ _ N1). destruct (Od _ Iy Bx). cbn [hw_fn] in *. lia.
  - apply (on_way t ty t (h_sec x0) l0 T B); [| |exact Z|lia].
    + intros [g br k] [x k'] _ N. apply numbered_eq in N. destruct N as (N3 & -> & _ & N). rewrite R. cbn [own_id SpecRoute.own net_fn hw_fn behind]. split.
      * apply not_true_iff_false. rewrite id_eqb_ok, N3. intros Q. rewrite <- Q in Eb. cbn [bus] in Eb. lia.
      * unfold claims_bus. cbn [hw_fn]. destruct (is_bridge x); [|reflexivity]. cbn [andb]. destruct N as [N1 _]. apply (behind_bus g _ _ N1).
    + rewrite Forall_forall in *. intros [x k'] Iy z N Cl. destruct z as [g br k]. apply numbered_eq in N. destruct N as (N3 & N0 & (lay' & L' & S') & N).
      apply claims_spec in Cl. cbn [hw_fn] in Cl. destruct Cl as [Cl1 Cl2]. rewrite Cl1 in N0. subst br. destruct N as [N1 N2].
      pose proof (Rg _ Iy) as Rx. apply hw_all_eq in Rx. destruct Rx as [Rx Rk]. unfold ranged in Rx. cbn [hw_fn hw_below] in Rx. rewrite Cl1 in Rx.
      assert (Ng : f_id g <> dst) by (rewrite N3; intros Q; rewrite <- Q in Eb; cbn [bus] in Eb; lia).
      destruct (IH _ Iy x k' eq_refl Rk (proj2 Rx) g k lay' N1 Ng L' S' N2 Cl2) as (o & E & O). exists o. split; [exact E|]. apply outcome_down. exact O.
Qed.
End Ids.

(** ** The result *)
Lemma outcome_fns t' dst h' x o zs : (hw_get (bus dst) (device dst) (func dst) h' = x) -> outcome_id dst t' x o zs ->
  (forall b y, hw_get b (device dst) (func dst) h' = Some y <-> In (b, y) (below_functions h') /\ h_d y = device dst /\ h_f y = func dst) ->
  (In dst (map number (below_functions h')) -> exists g, o = Some (g, t') /\ f_id g = dst /\ In g (map fst (flat_map net_fns zs))) /\
  (~ In dst (map number (below_functions h')) -> o = None).
Proof.
  intros E O A. split; intros H.
  - apply in_map_iff in H. destruct H as ([b y] & Ey & H). unfold number in Ey. cbn [fst snd] in Ey. assert (G : hw_get (bus dst) (device dst) (func dst) h' = Some y).
    { apply A. rewrite <- Ey. cbn [bus device func]. auto. }
    rewrite G in E. subst x. destruct o as [[g t'']|]; cbn [outcome_id] in O; [|destruct O]. destruct O as (O1 & -> & O3). exists g. auto.
  - destruct x as [y|].
    + exfalso. apply H. apply A in E. destruct E as (E1 & E2 & E3). apply in_map_iff. exists (bus dst, y). split; [|exact E1]. unfold number. cbn [fst snd]. rewrite E2, E3. destruct dst; reflexivity.
    + destruct o as [[g t'']|]; [destruct O|reflexivity].
Qed.
Definition lands (h' : hw) (f : fnc) (zs : list net) (dst : pcie_id) (t t' : tlp) : Prop :=
  (In dst (map number (below_functions h')) -> exists g, reach (Net f true zs) t = Ok (Some (g, t')) /\ f_id g = dst /\ In g (map fst (flat_map net_fns zs))) /\
  (~ In dst (map number (below_functions h')) -> reach (Net f true zs) t = Ok None).
Lemma accesses' m h h' b : good_system m h -> scan_root m h = Ok (h', b) ->
  forall n d f x, hw_get n d f h' = Some x <-> In (n, x) (below_functions h') /\ h_d x = d /\ h_f x = f.
Proof. exact (accesses m h h' b). Qed.
Lemma ids m h h' b f zs : good_system m h -> scan_root m h = Ok (h', b) -> host_like f -> Forall2 (numbered 0) (hw_below h') zs ->
  forall t ty dst, tlp_check t = Ok true -> fmt_type t = Ok ty -> dst <> mkId 0 0 0 -> 0 <= bus dst < 256 ->
  (route_of ty t = TBus dst -> lands h' f zs dst t (set_type_ 4 t)) /\
  (route_of ty t = TBack dst -> lands h' f zs dst t t).
Proof.
  intros G Sc (I0 & L & Br) Z t ty dst C T D0 Hb. pose proof (accesses' m h h' b G Sc) as A.
  assert (X : hw_fn h' = hw_fn h' /\ h_sec (hw_fn h') = 0 /\ h_sub (hw_fn h') = 255 /\ ordered 0 (hw_below h') /\ Forall (hw_all ranged) (hw_below h')).
  { pose proof (scan_system m h G) as SS. destruct (bridges h <=? 256) eqn:Le.
    - destruct (enumerated m h G ltac:(lia)) as (h1 & E1 & _ & Li & _ & O & Rg & _). rewrite Sc in E1. injection E1 as <- _. destruct Li as (v & Ev).
      destruct G as (_ & _ & _ & G1 & G2 & _). rewrite Ev. cbn [put_mps h_sec h_sub]. auto.
    - rewrite Sc in SS. discriminate SS. }
  destruct X as (_ & X1 & X2 & X3 & X4). destruct h' as [x l]. cbn [hw_fn hw_below] in *. rewrite <- X1, <- X2 in Br. rewrite <- X1 in Z.
  assert (Hr : h_sec x <= bus dst <= h_sub x) by lia.
  split; intros R.
  - destruct (walk_config dst D0 t ty C T R (Hw x l) x l eq_refl f zs [None; None] Br L eq_refl Z Hr) as (o & E & O).
    destruct (outcome_fns (set_type_ 4 t) dst (Hw x l) _ o zs eq_refl O ltac:(intros; apply A)) as [O1 O2]. split; intros H.
    + destruct (O1 H) as (g & -> & O3). exists g. auto.
    + rewrite (O2 H) in E. exact E.
  - rewrite <- X1 in X3. assert (Nf : f_id f <> dst) by (rewrite I0; congruence).
    destruct (walk_back dst D0 t ty C T R (Hw x l) x l eq_refl X4 X3 f zs [None; None] Br Nf L eq_refl Z Hr) as (o & E & O).
    destruct (outcome_fns t dst (Hw x l) _ o zs eq_refl O ltac:(intros; apply A)) as [O1 O2]. split; intros H.
    + destruct (O1 H) as (g & -> & O3). exists g. auto.
    + rewrite (O2 H) in E. exact E.
Qed.
