(** One access of enumeration in the tree: what the host sees of the tree afterwards. *)
From Verif Require Import Base BaseProofs SpecTlp ModelUtils ModelTlp ModelAttrs ModelCapList ModelConfig ModelFunction ModelHost ModelPci ModelChan ModelEnum ModelPciCaps ModelDriver ModelTree ModelTreeCfg ModelEnumCfg
  SpecConfig SpecHost SpecBar SpecPciCaps SpecRoute SpecTree SpecTreeCfg ModelScan SpecScan SpecEnumCfg
  ProofsHost ProofsEnum ProofsTreeUpAll ProofsTreeCfgAll ProofsScan ProofsScanAll ProofsScanHw ProofsEnumFn ProofsEnumCap.

(** ** Places *)
Section Tells.
Context (fuel : nat).
Lemma tells_at d f y z : tells fuel y z -> sits d f z = is_at d f y.
Proof. intros [x l g br l' L _]. exact (looks_at d f x g br (t_looks _ _ _ _ L)). Qed.
Lemma tells_covers b y z : tells fuel y z -> covers b z = claims_bus b y.
Proof.
  intros [x l g br l' L _]. unfold covers, claims_bus. cbn [net_br net_fn hw_fn]. destruct (t_looks _ _ _ _ L) as (_ & _ & -> & _ & _ & _ & _ & B). destruct (is_bridge x); [|reflexivity]. destruct (B eq_refl) as [_ ->]. reflexivity.
Qed.
Definition matches (o : option (fnc * bool)) (p : option hfn) : Prop := match o, p with Some (g, br), Some x => told fuel x g br | None, None => True | _, _ => False end.
Lemma claimed_sec b x g br : told fuel x g br -> claims_bus b (Hw x []) = true -> fst (bus_range g) = h_sec x.
Proof.
  intros T C. destruct (t_looks _ _ _ _ T) as (_ & _ & Br & _ & _ & _ & _ & B). unfold claims_bus in C. cbn [hw_fn] in C. destruct br; [destruct (B eq_refl) as [_ ->]; reflexivity|rewrite <- Br in C; discriminate C].
Qed.
Lemma matching b d f h : forall g br l, fst (bus_range g) = h_sec (hw_fn h) -> Forall2 (tells fuel) (hw_below h) l -> matches (leads b d f (Net g br l)) (hw_get b d f h).
Proof.
  induction h as [x ys IH] using hw_rect'. intros g br l E S. cbn [hw_fn hw_below] in E, S. cbn [leads hw_get]. rewrite E. clear E. induction S as [|y z ys zs S1 S2 IHS]; [exact I|]. pose proof (Forall_inv IH) as IH1. pose proof (Forall_inv_tail IH) as IH2. clear IH.
  destruct (b =? h_sec x).
  - rewrite (tells_at d f y z S1). destruct (is_at d f y); [destruct S1; assumption|exact (IHS IH2)].
  - rewrite (tells_covers b y z S1). destruct (claims_bus b y) eqn:C; [|exact (IHS IH2)]. destruct S1 as [x1 l1 g1 br1 l1' L1 S1]. exact (IH1 g1 br1 l1' (claimed_sec b x1 g1 br1 L1 C) S1).
Qed.
Lemma exchanged b d f k g' h : forall g br l, fst (bus_range g) = h_sec (hw_fn h) -> Forall2 (tells fuel) (hw_below h) l ->
  (forall x g0 br0, hw_get b d f h = Some x -> leads b d f (Net g br l) = Some (g0, br0) -> told fuel (k x) g' br0) ->
  exists l', instead g' b d f (Net g br l) = Net g br l' /\ Forall2 (tells fuel) (hw_below (hw_map k b d f h)) l'.
Proof.
  induction h as [x ys IH] using hw_rect'. intros g br l E S. cbn [hw_fn hw_below] in E, S. cbn [leads hw_get hw_map instead hw_below]. rewrite E. clear E. intros H. eexists. split; [reflexivity|]. revert H. induction S as [|y z ys zs S1 S2 IHS]; [constructor|].
  pose proof (Forall_inv IH) as IH1. pose proof (Forall_inv_tail IH) as IH2. clear IH. destruct (b =? h_sec x).
  - rewrite (tells_at d f y z S1). destruct (is_at d f y).
    + intros H. constructor; [|exact S2]. destruct S1 as [x1 l1 g1 br1 l1' L1 S1]. cbn [set_fn hw_fn net_fn net_br] in *. constructor; [|exact S1]. exact (H x1 g1 br1 eq_refl eq_refl).
    + intros H. constructor; [exact S1|exact (IHS IH2 H)].
  - rewrite (tells_covers b y z S1). destruct (claims_bus b y) eqn:C.
    + intros H. constructor; [|exact S2]. destruct S1 as [x1 l1 g1 br1 l1' L1 S1].
      destruct (IH1 g1 br1 l1' (claimed_sec b x1 g1 br1 L1 C) S1 H) as (l' & -> & S'). cbn [hw_map hw_below] in S' |- *. constructor; assumption.
    + intros H. constructor; [exact S1|exact (IHS IH2 H)].
Qed.
Lemma place h z b d f : system fuel h z -> matches (leads b d f z) (hw_get b d f h).
Proof. intros ((f0 & l0 & E0 & B & _) & Z0 & f1 & l & E & S). rewrite E in E0. injection E0 as <- <-. rewrite E. apply matching; [rewrite B, Z0; reflexivity|exact S]. Qed.
End Tells.

(** ** Elsewhere *)
Definition there (b' d' f' b d f : Z) : bool := (b' =? b) && (d' =? d) && (f' =? f).
Lemma at_two d f d' f' y : is_at d f y = true -> is_at d' f' y = (d' =? d) && (f' =? f).
Proof. unfold is_at. intros H. destruct (Z.eqb_spec d' d), (Z.eqb_spec f' f); lia. Qed.
Section Elsewhere.
Context (k : hfn -> hfn) (b d f b' d' f' : Z).
Hypothesis Kn : forall x, h_d (k x) = h_d x /\ h_f (k x) = h_f x /\ h_type (k x) = h_type x.
Hypothesis Kb : (forall x, h_sec (k x) = h_sec x /\ h_sub (k x) = h_sub x) \/ b' <= b.
Lemma at_set y : is_at d' f' (set_fn k y) = is_at d' f' y.
Proof. destruct y as [x l]. unfold is_at. cbn [set_fn hw_fn]. destruct (Kn x) as (-> & -> & _). reflexivity. Qed.
Lemma get_elsewhere h : h_sec (hw_fn h) <= b' -> hw_get b' d' f' (hw_map k b d f h) = if there b' d' f' b d f then option_map k (hw_get b d f h) else hw_get b' d' f' h.
Proof.
  induction h as [x l IH] using hw_rect'. cbn [hw_fn hw_get hw_map]. intros Sx. induction l as [|c r IHr]; [destruct (there b' d' f' b d f); reflexivity|]. pose proof (Forall_inv IH) as IH1. pose proof (Forall_inv_tail IH) as IH2. clear IH. specialize (IHr IH2).
  destruct (Z.eqb_spec b (h_sec x)) as [Eb|Eb].
  - destruct (is_at d f c) eqn:Ac.
    + destruct (Z.eqb_spec b' (h_sec x)) as [Eb'|Eb'].
      * rewrite at_set, (at_two d f d' f' c Ac). unfold there. replace (b' =? b) with true by lia. cbn [andb]. destruct ((d' =? d) && (f' =? f)); [destruct c; reflexivity|reflexivity].
      * assert (Nt : there b' d' f' b d f = false) by (unfold there; replace (b' =? b) with false by lia; reflexivity). rewrite Nt. destruct Kb as [Kk|Kk]; [|exfalso; lia].
        destruct c as [xc lc]. unfold claims_bus. cbn [set_fn hw_fn]. destruct (Kk xc) as [K1 K2]. destruct (Kn xc) as (_ & _ & K3). unfold is_bridge. rewrite K1, K2, K3. cbn [hw_get]. rewrite K1. reflexivity.
    + destruct (Z.eqb_spec b' (h_sec x)) as [Eb'|Eb'].
      * rewrite IHr. unfold there. replace (b' =? b) with true by lia. cbn [andb]. destruct ((d' =? d) && (f' =? f)) eqn:Df; [|reflexivity]. assert (d' = d /\ f' = f) as [-> ->] by lia. rewrite Ac. reflexivity.
      * rewrite IHr. unfold there. replace (b' =? b) with false by lia. reflexivity.
  - destruct (claims_bus b c) eqn:Cc.
    + destruct (Z.eqb_spec b' (h_sec x)) as [Eb'|Eb'].
      * unfold is_at at 1. rewrite map_top. fold (is_at d' f' c). unfold there. replace (b' =? b) with false by lia. cbn [andb]. reflexivity.
      * unfold claims_bus at 1. rewrite map_top. fold (claims_bus b' c). destruct (claims_bus b' c) eqn:Cc'.
        { apply IH1. unfold claims_bus in Cc'. lia. }
        destruct (Z.eqb_spec b' b) as [->|Nb]; [rewrite Cc in Cc'; discriminate Cc'|]. unfold there. replace (b' =? b) with false by lia. reflexivity.
    + destruct (Z.eqb_spec b' (h_sec x)) as [Eb'|Eb'].
      * rewrite IHr. unfold there. replace (b' =? b) with false by lia. reflexivity.
      * rewrite IHr. destruct (there b' d' f' b d f) eqn:Th; [|reflexivity]. unfold there in Th. assert (b' = b) as -> by lia. rewrite Cc. reflexivity.
Qed.
End Elsewhere.
Section Elsewhere2.
Context (g' : fnc) (b d f b' d' f' : Z).
Hypothesis Gn : device (f_id g') = d /\ func (f_id g') = f.
Lemma leads_elsewhere z : (forall g br, leads b d f z = Some (g, br) -> br = true -> bus_range g' = bus_range g) \/ b' <= b -> fst (bus_range (net_fn z)) <= b' ->
  leads b' d' f' (instead g' b d f z) = if there b' d' f' b d f then option_map (fun p => (g', snd p)) (leads b d f z) else leads b' d' f' z.
Proof.
  induction z as [g0 b0 l IH] using net_rect'. cbn [net_fn leads instead]. intros Kb Sx. induction l as [|c r IHr]; [destruct (there b' d' f' b d f); reflexivity|]. pose proof (Forall_inv IH) as IH1. pose proof (Forall_inv_tail IH) as IH2. clear IH. specialize (IHr IH2).
  destruct (Z.eqb_spec b (fst (bus_range g0))) as [Eb|Eb].
  - destruct (sits d f c) eqn:Ac.
    + destruct c as [gc bc kc]. cbn [net_fn net_br] in *. assert (Two : sits d' f' (Net g' bc kc) = (d' =? d) && (f' =? f)) by (unfold sits; cbn [net_fn]; destruct Gn as [-> ->]; rewrite (Z.eqb_sym d), (Z.eqb_sym f); reflexivity).
      assert (Two' : sits d' f' (Net gc bc kc) = (d' =? d) && (f' =? f)) by (clear - Ac; unfold sits in *; cbn [net_fn] in *; destruct (Z.eqb_spec d' d), (Z.eqb_spec f' f); lia).
      destruct (Z.eqb_spec b' (fst (bus_range g0))) as [Eb'|Eb'].
      * rewrite Two, Two'. unfold there. replace (b' =? b) with true by lia. cbn [andb]. destruct ((d' =? d) && (f' =? f)); reflexivity.
      * assert (Nt : there b' d' f' b d f = false) by (unfold there; replace (b' =? b) with false by lia; reflexivity). rewrite Nt. destruct Kb as [Kk|Kk]; [|exfalso; lia].
        specialize (Kk gc bc eq_refl). unfold covers. cbn [net_br net_fn]. destruct bc; [|reflexivity]. specialize (Kk eq_refl). rewrite Kk. cbn [leads]. rewrite Kk. reflexivity.
    + specialize (IHr Kb). destruct (Z.eqb_spec b' (fst (bus_range g0))) as [Eb'|Eb'].
      * rewrite IHr. unfold there. replace (b' =? b) with true by lia. cbn [andb]. destruct ((d' =? d) && (f' =? f)) eqn:Df; [|reflexivity]. assert (d' = d /\ f' = f) as [-> ->] by lia. rewrite Ac. reflexivity.
      * rewrite IHr. unfold there. replace (b' =? b) with false by lia. reflexivity.
  - destruct (covers b c) eqn:Cc.
    + assert (Si : sits d' f' (instead g' b d f c) = sits d' f' c) by (destruct c; reflexivity). assert (Cv : covers b' (instead g' b d f c) = covers b' c) by (destruct c; reflexivity).
      destruct (Z.eqb_spec b' (fst (bus_range g0))) as [Eb'|Eb'].
      * rewrite Si. unfold there. replace (b' =? b) with false by lia. cbn [andb]. destruct (sits d' f' c); [destruct c; reflexivity|reflexivity].
      * rewrite Cv. destruct (covers b' c) eqn:Cc'.
        { apply IH1; [exact Kb|]. unfold covers in Cc'. lia. }
        destruct (Z.eqb_spec b' b) as [->|Nb]; [rewrite Cc in Cc'; discriminate Cc'|]. unfold there. replace (b' =? b) with false by lia. reflexivity.
    + specialize (IHr Kb). destruct (Z.eqb_spec b' (fst (bus_range g0))) as [Eb'|Eb'].
      * rewrite IHr. unfold there. replace (b' =? b) with false by lia. reflexivity.
      * rewrite IHr. destruct (there b' d' f' b d f) eqn:Th; [|reflexivity]. unfold there in Th. assert (b' = b) as -> by lia. rewrite Cc. reflexivity.
Qed.
End Elsewhere2.

(** ** What enumeration relies on for the functions on buses up to [n] *)
Definition stays (n : Z) (h : hw) (z : net) (h' : hw) (z' : net) : Prop := forall b d f x g br, 0 <= b <= n -> hw_get b d f h = Some x -> leads b d f z = Some (g, br) ->
  exists x' g', hw_get b d f h' = Some x' /\ leads b d f z' = Some (g', br) /\ h_exp x' = h_exp x /\ h_type x' = h_type x /\ listing g' = listing g.
Lemma stays_refl n h z : stays n h z h z.
Proof. intros b d f x g br _ G L. exists x, g. auto. Qed.
Lemma stays_trans n h1 z1 h2 z2 h3 z3 : stays n h1 z1 h2 z2 -> stays n h2 z2 h3 z3 -> stays n h1 z1 h3 z3.
Proof.
  intros A B b d f x g br Hb G L. destruct (A b d f x g br Hb G L) as (x' & g' & G' & L' & E1 & E2 & E3). destruct (B b d f x' g' br Hb G' L') as (x2 & g2 & G2 & L2 & F1 & F2 & F3). exists x2, g2. repeat (split; [assumption|]). repeat split; congruence.
Qed.
Lemma stays_mono n m h z h' z' : n <= m -> stays m h z h' z' -> stays n h z h' z'.
Proof. intros L A b d f x g br Hb. apply A. lia. Qed.
(** and for the function numbers caught so far: ProofsEnumCap.v *)
Definition keep (n : Z) (z z' : net) : Prop := forall D E last, n <= last -> inv D E last z -> inv D E last z'.
Definition gain (n : Z) (S : pcie_id -> Prop) (z z' : net) : Prop := forall D E last, n <= last -> inv D E last z -> inv (fun i => D i \/ S i) E last z'.
Definition stay (n : Z) (h : hw) (z : net) (h' : hw) (z' : net) : Prop := stays n h z h' z' /\ keep n z z'.
Lemma stay_refl n h z : stay n h z h z.
Proof. split; [apply stays_refl|]. intros D E last _ I. exact I. Qed.
Lemma stay_trans n h1 z1 h2 z2 h3 z3 : stay n h1 z1 h2 z2 -> stay n h2 z2 h3 z3 -> stay n h1 z1 h3 z3.
Proof. intros [A A'] [B B']. split; [exact (stays_trans _ _ _ _ _ _ _ A B)|]. intros D E last L I. exact (B' D E last L (A' D E last L I)). Qed.
Lemma map_keep k b d f x h : hw_get b d f h = Some x -> k x = x -> hw_map k b d f h = h.
Proof.
  intros G K. revert G. induction h as [x0 l IH] using hw_rect'. cbn [hw_get hw_map]. intros G. f_equal. revert G. induction l as [|c r IHr]; [reflexivity|]. pose proof (Forall_inv IH) as IH1. pose proof (Forall_inv_tail IH) as IH2. clear IH. destruct (b =? h_sec x0).
  - destruct (is_at d f c); [intros E; injection E as E; destruct c as [xc lc]; cbn [hw_fn set_fn] in *; subst xc; rewrite K; reflexivity|]. intros E. rewrite (IHr IH2 E). reflexivity.
  - destruct (claims_bus b c); intros E; [rewrite (IH1 E); reflexivity|rewrite (IHr IH2 E); reflexivity].
Qed.
Definition mild (k : hfn -> hfn) : Prop := forall x, h_d (k x) = h_d x /\ h_f (k x) = h_f x /\ h_type (k x) = h_type x /\ h_exp (k x) = h_exp x.
Lemma mps_mild v : mild (put_mps v).
Proof. intros x. repeat split. Qed.
Lemma buses_mild p c s : mild (put_buses p c s).
Proof. intros x. repeat split. Qed.

Section Step.
Context (fuel : nat) (h : hw) (z : net) (b d f : Z) (g g' : fnc) (br : bool) (x : hfn) (k : hfn -> hfn) (n : Z).
Hypothesis Sy : system fuel h z.
Hypothesis Nh : mkId b d f <> id0.
Hypothesis Ge : hw_get b d f h = Some x.
Hypothesis Le : leads b d f z = Some (g, br).
Hypothesis Mk : mild k.
Hypothesis Kb : (forall x, h_sec (k x) = h_sec x /\ h_sub (k x) = h_sub x) \/ n <= b.
Hypothesis Tu : turned fuel b d f g br (k x) g'.
Lemma here_told : told fuel x g br.
Proof. pose proof (place fuel h z b d f Sy) as P. rewrite Ge, Le in P. exact P. Qed.
Lemma turned_at : device (f_id g') = d /\ func (f_id g') = f.
Proof. destruct Tu as (_ & _ & [-> | E] & _); [exact (leads_at b d f z g br Le)|rewrite E; auto]. Qed.
Lemma one_system : system fuel (hw_map k b d f h) (instead g' b d f z).
Proof.
  pose proof Sy as (Ho & Z0 & f1 & l & E & S). split; [|split; [rewrite map_top; exact Z0|]].
  - destruct Tu as (_ & _ & [-> | E'] & _); [rewrite (instead_same b d f z g br Le); exact Ho|apply host_instead; [rewrite E'; exact Nh|exact Ho]].
  - destruct Ho as (f0 & l0 & E0 & B & _). rewrite E in E0. injection E0 as <- <-. pose proof Le as Le'. rewrite E in Le' |- *.
    destruct (exchanged fuel b d f k g' h f1 true l) as (l' & E' & S'); [rewrite B, Z0; reflexivity|exact S| |exists f1, l'; split; [exact E'|exact S']].
    intros x0 g0 br0 G0 L0. rewrite Ge in G0. injection G0 as <-. rewrite Le' in L0. injection L0 as _ <-. exact (proj1 Tu).
Qed.
Lemma one_stays : stays n h z (hw_map k b d f h) (instead g' b d f z).
Proof.
  intros b' d' f' x0 g0 br0 Hb G0 L0. pose proof Sy as ((ft & lt & Et & Bt & _) & Z0 & _).
  assert (GE := get_elsewhere k b d f b' d' f'). rewrite GE; [|intros y; destruct (Mk y) as (? & ? & ? & _); auto|destruct Kb; [left; assumption|right; lia]|rewrite Z0; lia]. clear GE.
  rewrite (leads_elsewhere g' b d f b' d' f' turned_at z); [| |rewrite Et; cbn [net_fn]; rewrite Bt; cbn [fst]; lia].
  - destruct (there b' d' f' b d f) eqn:Th; [|exists x0, g0; auto]. unfold there in Th. assert (b' = b /\ d' = d /\ f' = f) as (-> & -> & ->) by lia.
    rewrite Ge in G0. injection G0 as <-. rewrite Le in L0. injection L0 as <- <-. rewrite Ge, Le. cbn [option_map snd]. exists (k x), g'. split; [reflexivity|]. split; [reflexivity|]. destruct (Mk x) as (_ & _ & -> & ->). split; [reflexivity|]. split; [reflexivity|exact (proj1 (proj2 Tu))].
  - destruct Kb as [Kk|Kk]; [left|right; lia]. intros g1 br1 L1 Eb. rewrite Le in L1. injection L1 as <- <-.
    pose proof (t_looks _ _ _ _ here_told) as (_ & _ & _ & _ & _ & _ & _ & B1). pose proof (t_looks _ _ _ _ (proj1 Tu)) as (_ & _ & _ & _ & _ & _ & _ & B2). rewrite (proj2 (B1 Eb)), (proj2 (B2 Eb)). destruct (Kk x) as [-> ->]. reflexivity.
Qed.
Lemma alive_looks x0 g0 : told fuel x0 g0 br -> br = true -> bus_range g0 = (h_sec x0, h_sub x0).
Proof. intros T Eb. pose proof (t_looks _ _ _ _ T) as (_ & _ & _ & _ & _ & _ & _ & B). exact (proj2 (B Eb)). Qed.
Lemma one_access D E last : (forall x, h_sec (k x) = h_sec x /\ h_sub (k x) = h_sub x) -> 0 <= b <= last -> f_id g' = mkId b d f -> inv D E last z -> inv (fun i => D i \/ i = mkId b d f) E last (instead g' b d f z).
Proof.
  intros Kk Hb Ig I. assert (Q : br = true -> bus_range g' = bus_range g) by (intros Eb; rewrite (alive_looks _ _ here_told Eb), (alive_looks _ _ (proj1 Tu) Eb); destruct (Kk x) as [-> ->]; reflexivity).
  apply (inv_access D E last z b d f g br g' I Hb Le Ig).
  - unfold alive. destruct br; [rewrite Q by reflexivity|]; reflexivity.
  - unfold alive. intros A. rewrite Q; [reflexivity|]. destruct br; [reflexivity|discriminate A].
  - exact (proj2 (proj2 (proj2 Tu))).
Qed.
Lemma one_keep : (forall x, h_sec (k x) = h_sec x /\ h_sub (k x) = h_sub x) -> 0 <= b <= n -> keep n z (instead g' b d f z).
Proof.
  intros Kk Hb D E last L I. destruct Tu as (_ & _ & [Eg | Eg] & _); [subst g'; rewrite (instead_same b d f z g br Le); exact I|].
  apply (inv_less (fun i => D i \/ i = mkId b d f)); [tauto|]. apply one_access; [exact Kk|lia|exact Eg|exact I].
Qed.
Lemma one_stay : (forall x, h_sec (k x) = h_sec x /\ h_sub (k x) = h_sub x) -> 0 <= b <= n -> stay n h z (hw_map k b d f h) (instead g' b d f z).
Proof. intros Kk Hb. split; [exact one_stays|exact (one_keep Kk Hb)]. Qed.
End Step.
(** Nothing that enumeration cares about was written. *)
Lemma one_same fuel h z b d f g g' br x n : 0 <= b <= n -> system fuel h z -> mkId b d f <> id0 -> hw_get b d f h = Some x -> leads b d f z = Some (g, br) -> turned fuel b d f g br x g' ->
  system fuel h (instead g' b d f z) /\ stay n h z h (instead g' b d f z) /\ leads b d f (instead g' b d f z) = Some (g', br) /\ (f_id g' = mkId b d f -> gain n (fun i => i = mkId b d f) z (instead g' b d f z)).
Proof.
  intros Hb Sy Nh Ge Le Tu. set (k := put_mps (h_mps x)). assert (Kx : k x = x) by (destruct x; reflexivity). pose proof (map_keep k b d f x h Ge Kx) as E. assert (Tu' : turned fuel b d f g br (k x) g') by (rewrite Kx; exact Tu).
  assert (Kk : forall y, h_sec (k y) = h_sec y /\ h_sub (k y) = h_sub y) by (intros y; split; reflexivity).
  pose proof (one_system fuel h z b d f g g' br x k Sy Nh Ge Le Tu') as S1. pose proof (one_stay fuel h z b d f g g' br x k n Sy Ge Le (mps_mild _) (or_introl Kk) Tu' Kk Hb) as S2. rewrite E in S1, S2. split; [exact S1|]. split; [exact S2|].
  destruct (turned_at fuel z b d f g g' br x k Le Tu') as [D F]. split; [exact (leads_instead b d f z g br g' Le D F)|]. intros Eg D0 E0 last L I. exact (one_access fuel h z b d f g g' br x k Sy Ge Le Tu' D0 E0 last Kk ltac:(lia) Eg I).
Qed.
