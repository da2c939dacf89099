(** Enumeration gives every function its number: what is true of the tree at any time. *)
From Verif Require Import Base BaseProofs SpecTlp ModelUtils ModelTlp ModelAttrs ModelCapList ModelConfig ModelTree ModelTreeCfg SpecBar SpecRoute SpecTree SpecTreeCfg SpecAssign ModelScan SpecScan ProofsTreeUpAll ProofsTreeCfgAll ProofsScanAll.
Require Import Permutation.

(** A bridge that has been given buses *)
Definition alive (g : fnc) (br : bool) : bool := br && negb (snd (bus_range g) =? 0).
Definition live (z : net) : bool := alive (net_fn z) (net_br z).
(** The numbers of [D] have reached the functions they are for, and the bridges that have buses are those with numbers in [E], which has their secondary buses. *)
Inductive caught (D : pcie_id -> Prop) (E : pcie_id -> Z -> Prop) : net -> Prop := Caught g br l :
  (alive g br = true -> forall d f w, find (sits d f) l = Some w -> (forall c, E (mkId (fst (bus_range g)) d f) c <-> live w = true /\ fst (bus_range (net_fn w)) = c) /\ (D (mkId (fst (bus_range g)) d f) -> f_id (net_fn w) = mkId (fst (bus_range g)) d f)) ->
  (alive g br = false -> Forall (fun w => live w = false) l) ->
  Forall (fun w => net_br w = true -> whole (net_fn w)) l -> Forall (caught D E) l -> caught D E (Net g br l).
Fixpoint secs (z : net) : list Z := match z with Net g br l => (if alive g br then [fst (bus_range g)] else []) ++ flat_map secs l end.

Section Places.
Context (b d f : Z).
Lemma leads_split g0 b0 l g br g' : leads b d f (Net g0 b0 l) = Some (g, br) ->
  (b = fst (bus_range g0) /\ exists pre kids post, l = pre ++ Net g br kids :: post /\ Forall (fun w => sits d f w = false) pre /\ sits d f (Net g br kids) = true /\ instead g' b d f (Net g0 b0 l) = Net g0 b0 (pre ++ Net g' br kids :: post)) \/
  (b <> fst (bus_range g0) /\ exists pre w post, l = pre ++ w :: post /\ covers b w = true /\ leads b d f w = Some (g, br) /\ instead g' b d f (Net g0 b0 l) = Net g0 b0 (pre ++ instead g' b d f w :: post)).
Proof.
  cbn [leads instead]. destruct (Z.eqb_spec b (fst (bus_range g0))) as [Eb|Eb]; intros E; [left|right]; (split; [exact Eb|]); revert E; induction l as [|c r IH]; try discriminate.
  - destruct (sits d f c) eqn:Si.
    + destruct c as [gc bc kc]. intros E. injection E as <- <-. exists [], kc, r. repeat split; [constructor|exact Si].
    + intros E. destruct (IH E) as (pre & kids & post & -> & F & S & I). exists (c :: pre), kids, post. repeat split; [constructor; assumption|exact S|]. injection I as I. rewrite I. reflexivity.
  - destruct (covers b c) eqn:Co.
    + intros E. exists [], c, r. repeat split; assumption.
    + intros E. destruct (IH E) as (pre & w & post & -> & C & L & I). exists (c :: pre), w, post. repeat split; [exact C|exact L|]. injection I as I. rewrite I. reflexivity.
Qed.
Lemma covers_live w : 0 < b -> covers b w = true -> live w = true.
Proof. unfold covers, live, alive. intros B C. destruct (net_br w); [|discriminate C]. cbn [andb] in *. destruct (Z.eqb_spec (snd (bus_range (net_fn w))) 0); [lia|reflexivity]. Qed.
Lemma leads_secs z g br : live z = true -> b = fst (bus_range (net_fn z)) \/ 0 < b -> leads b d f z = Some (g, br) -> In b (secs z).
Proof.
  induction z as [g0 b0 l IH] using net_rect'. intros Li Hb Le. cbn [live net_fn net_br] in Li, Hb. unfold live in Li. cbn [net_fn net_br] in Li. cbn [secs]. rewrite Li. apply in_or_app.
  destruct (leads_split g0 b0 l g br g Le) as [[Eb _]|(Eb & pre & w & post & -> & C & L & _)]; [left; left; auto|right]. apply in_flat_map. exists w. split; [apply in_elt|].
  apply Forall_elt in IH. apply IH; [apply covers_live; [lia|exact C]|right; lia|exact L].
Qed.
End Places.
Lemma net_fn_instead g' b d f z : net_fn (instead g' b d f z) = net_fn z /\ net_br (instead g' b d f z) = net_br z.
Proof. destruct z. split; reflexivity. Qed.
Lemma find_swap (p : net -> bool) pre w w' post v : p w' = p w -> find p (pre ++ w' :: post) = Some v -> find p (pre ++ w :: post) = Some v \/ (v = w' /\ find p (pre ++ w :: post) = Some w).
Proof.
  intros E. induction pre as [|c r IH]; cbn [app find].
  - rewrite E. destruct (p w); [intros H; injection H as <-; auto|auto].
  - destruct (p c); [auto|exact IH].
Qed.
Lemma find_first (p : net -> bool) pre w post : Forall (fun c => p c = false) pre -> p w = true -> find p (pre ++ w :: post) = Some w.
Proof. intros F P. induction F as [|c r Pc F IH]; cbn [app find]; [rewrite P; reflexivity|rewrite Pc; exact IH]. Qed.
Lemma nodup_r (a c : list Z) : NoDup (a ++ c) -> NoDup c.
Proof. induction a as [|y a IH]; [auto|]. intros N. inversion N; subst. auto. Qed.
Lemma nodup_part (s : list Z) pre w post x : NoDup (s ++ flat_map secs (pre ++ w :: post)) -> In x s \/ In x (secs w) ->
  (In x s -> ~ In x (secs w)) /\ NoDup (secs w) /\ (forall v, In v pre \/ In v post -> ~ In x (secs v)).
Proof.
  rewrite flat_map_app. cbn [flat_map]. intros N H. split; [|split].
  - intros Hs Hw. assert (P : Permutation (s ++ flat_map secs pre ++ secs w ++ flat_map secs post) (s ++ secs w ++ (flat_map secs pre ++ flat_map secs post))) by (apply Permutation_app_head; rewrite !app_assoc; apply Permutation_app_tail, Permutation_app_comm).
    apply (Permutation_NoDup P) in N. clear P. induction s as [|a s IH]; [destruct Hs|]. inversion N as [|? ? Na Ns]; subst. destruct Hs as [-> |Hs]; [apply Na, in_or_app; right; apply in_or_app; left; exact Hw|]. apply IH; auto.
  - apply nodup_r in N. apply nodup_r in N. clear H. revert N. generalize (secs w) as a. intros a N. induction a as [|y a IH]; [constructor|]. inversion N as [|? ? Na Ns]; subst. constructor; [intros I; apply Na, in_or_app; left; exact I|exact (IH Ns)].
  - intros v Hv I. set (rest := flat_map secs pre ++ flat_map secs post). assert (Ir : In x rest) by (apply in_or_app; destruct Hv; [left|right]; apply in_flat_map; exists v; auto).
    assert (P : Permutation (s ++ flat_map secs pre ++ secs w ++ flat_map secs post) ((s ++ secs w) ++ rest)) by (rewrite <- !app_assoc; apply Permutation_app_head; unfold rest; rewrite !app_assoc; apply Permutation_app_tail, Permutation_app_comm).
    apply (Permutation_NoDup P) in N. clear P. assert (Is : In x (s ++ secs w)) by (apply in_or_app; exact H). clear H. revert N Is. generalize (s ++ secs w) as a. intros a N Is. induction a as [|y a IH]; [destruct Is|].
    inversion N as [|? ? Na Ns]; subst. destruct Is as [-> |Is]; [apply Na, in_or_app; right; exact Ir|exact (IH Ns Is)].
Qed.

Section Change.
Context (D D' : pcie_id -> Prop) (E E' : pcie_id -> Z -> Prop) (b d f : Z) (g' : fnc).
Hypothesis HD : forall i, D' i -> D i \/ i = mkId b d f.
Hypothesis HE : forall i c, i <> mkId b d f -> (E' i c <-> E i c).
Hypothesis Id : f_id g' = mkId b d f.
Lemma caught_more z : ~ In b (secs z) -> caught D E z -> caught D' E' z.
Proof.
  induction z as [g0 b0 l IH] using net_rect'. intros N C. inversion C as [? ? ? C1 C2 C3 C4]; subst. cbn [secs] in N. constructor; [|exact C2|exact C3|].
  - intros A d1 f1 w Fi. destruct (C1 A d1 f1 w Fi) as [P Q]. assert (Nb : fst (bus_range g0) <> b) by (intros Eb; apply N, in_or_app; left; rewrite A; left; exact Eb). split; [intros c; rewrite HE; [apply P|congruence]|]. intros Di. apply Q. destruct (HD _ Di) as [H|H]; [exact H|]. congruence.
  - rewrite Forall_forall in *. intros w Hw. apply IH; [exact Hw| |exact (C4 w Hw)]. intros I. apply N, in_or_app. right. apply in_flat_map. exists w. auto.
Qed.
Lemma caught_at z : forall g br, live z = true -> b = fst (bus_range (net_fn z)) \/ 0 < b -> leads b d f z = Some (g, br) -> NoDup (secs z) -> caught D E z ->
  (forall kids, ~ In b (secs (Net g br kids)) -> caught D E (Net g br kids) -> caught D' E' (Net g' br kids)) ->
  ((forall c, E (mkId b d f) c <-> alive g br = true /\ fst (bus_range g) = c) -> forall c, E' (mkId b d f) c <-> alive g' br = true /\ fst (bus_range g') = c) -> (br = true -> whole g -> whole g') -> caught D' E' (instead g' b d f z).
Proof.
  induction z as [g0 b0 l IH] using net_rect'. intros g br Li Hb Le ND C HK HA HW. inversion C as [? ? ? C1 C2 C3 C4]; subst. unfold live in Li. cbn [net_fn net_br] in Li, Hb. cbn [secs] in ND. rewrite Li in ND.
  destruct (leads_split b d f g0 b0 l g br g' Le) as [(Eb & pre & kids & post & El & F & Si & ->)|(Eb & pre & w & post & El & Co & L & ->)]; subst l.
  - destruct (nodup_part _ pre (Net g br kids) post b ND) as (N1 & N2 & N3); [left; left; auto|]. specialize (N1 ltac:(left; auto)).
    assert (Si' : forall d1 f1, sits d1 f1 (Net g' br kids) = sits d1 f1 (Net g br kids)) by (intros d1 f1; unfold sits in *; cbn [net_fn] in *; rewrite Id; cbn [device func]; destruct (Z.eqb_spec (device (f_id g)) d), (Z.eqb_spec (func (f_id g)) f); try discriminate Si; subst; reflexivity).
    assert (Ff : find (sits d f) (pre ++ Net g' br kids :: post) = Some (Net g' br kids)) by (apply find_first; [exact F|rewrite Si'; exact Si]).
    assert (Fo : find (sits d f) (pre ++ Net g br kids :: post) = Some (Net g br kids)) by (apply find_first; [exact F|exact Si]).
    constructor; [|intros A; rewrite A in Li; discriminate Li| |].
    + intros _ d1 f1 v Fi. destruct (Z.eq_dec d1 d) as [-> |Nd]; [destruct (Z.eq_dec f1 f) as [-> |Nf]|].
      * rewrite Ff in Fi. injection Fi as <-. unfold live. cbn [net_fn net_br]. rewrite <- Eb. split; [|intros _; exact Id]. destruct (C1 Li d f _ Fo) as [P _]. rewrite <- Eb in P. exact (HA P).
      * destruct (find_swap (sits d f1) pre (Net g br kids) (Net g' br kids) post v (Si' _ _) Fi) as [Fi'|[-> Fi']].
        { destruct (C1 Li d f1 v Fi') as [P Q]. split; [intros c; rewrite HE; [apply P|congruence]|]. intros Di. apply Q. destruct (HD _ Di) as [H|H]; [exact H|injection H; congruence]. }
        exfalso. apply find_some in Fi. destruct Fi as [_ Fi]. unfold sits in Fi. cbn [net_fn] in Fi. rewrite Id in Fi. cbn [device func] in Fi. lia.
      * destruct (find_swap (sits d1 f1) pre (Net g br kids) (Net g' br kids) post v (Si' _ _) Fi) as [Fi'|[-> Fi']].
        { destruct (C1 Li d1 f1 v Fi') as [P Q]. split; [intros c; rewrite HE; [apply P|congruence]|]. intros Di. apply Q. destruct (HD _ Di) as [H|H]; [exact H|injection H; congruence]. }
        exfalso. apply find_some in Fi. destruct Fi as [_ Fi]. unfold sits in Fi. cbn [net_fn] in Fi. rewrite Id in Fi. cbn [device func] in Fi. lia.
    + apply Forall_app in C3. destruct C3 as [C3 C3']. apply Forall_app. split; [exact C3|]. constructor; [|exact (Forall_inv_tail C3')]. pose proof (Forall_inv C3') as Wg. cbn [net_fn net_br] in *. auto.
    + apply Forall_app in C4. destruct C4 as [C4 C4']. apply Forall_app. split; [|constructor].
      * rewrite Forall_forall in *. intros v Hv. apply caught_more; [apply N3; left; exact Hv|exact (C4 v Hv)].
      * apply HK; [exact N1|exact (Forall_inv C4')].
      * apply Forall_inv_tail in C4'. rewrite Forall_forall in *. intros v Hv. apply caught_more; [apply N3; right; exact Hv|exact (C4' v Hv)].
  - assert (B0 : 0 < b) by lia. pose proof (covers_live b w B0 Co) as Lw. pose proof (leads_secs b d f w g br Lw (or_intror B0) L) as Ib. destruct (nodup_part _ pre w post b ND (or_intror Ib)) as (_ & N2 & N3).
    destruct (net_fn_instead g' b d f w) as [Ef En]. constructor; [|intros A; rewrite A in Li; discriminate Li| |].
    + intros _ d1 f1 v Fi. assert (Go : forall v, find (sits d1 f1) (pre ++ w :: post) = Some v -> (forall c, E' (mkId (fst (bus_range g0)) d1 f1) c <-> live v = true /\ fst (bus_range (net_fn v)) = c) /\ (D' (mkId (fst (bus_range g0)) d1 f1) -> f_id (net_fn v) = mkId (fst (bus_range g0)) d1 f1)).
      { intros u Fu. destruct (C1 Li d1 f1 u Fu) as [P Q]. split; [intros c; rewrite HE; [apply P|congruence]|]. intros Di. apply Q. destruct (HD _ Di) as [H|H]; [exact H|injection H; congruence]. }
      destruct (find_swap (sits d1 f1) pre w (instead g' b d f w) post v ltac:(unfold sits; rewrite Ef; reflexivity) Fi) as [Fi'|[-> Fi']]; [exact (Go v Fi')|]. specialize (Go w Fi'). unfold live in *. rewrite Ef, En. exact Go.
    + apply Forall_app in C3. destruct C3 as [C3 C3']. apply Forall_app. split; [exact C3|]. constructor; [rewrite Ef, En; exact (Forall_inv C3')|exact (Forall_inv_tail C3')].
    + apply Forall_app in C4. destruct C4 as [C4 C4']. apply Forall_app. split; [|constructor].
      * rewrite Forall_forall in *. intros v Hv. apply caught_more; [apply N3; left; exact Hv|exact (C4 v Hv)].
      * apply Forall_elt in IH. exact (IH g br Lw (or_intror B0) L N2 (Forall_inv C4') HK HA HW).
      * apply Forall_inv_tail in C4'. rewrite Forall_forall in *. intros v Hv. apply caught_more; [apply N3; right; exact Hv|exact (C4' v Hv)].
Qed.
End Change.
Lemma secs_at g' b d f add z : forall g br, leads b d f z = Some (g, br) -> (forall kids, Permutation (secs (Net g' br kids)) (add ++ secs (Net g br kids))) -> Permutation (secs (instead g' b d f z)) (add ++ secs z).
Proof.
  induction z as [g0 b0 l IH] using net_rect'. intros g br Le HP.
  assert (Mid : forall w w' s pre post, Permutation (secs w') (add ++ secs w) -> Permutation (s ++ flat_map secs (pre ++ w' :: post)) (add ++ s ++ flat_map secs (pre ++ w :: post))).
  { intros w w' s pre post P. rewrite !flat_map_app. cbn [flat_map]. rewrite P. rewrite <- !app_assoc. rewrite (Permutation_app_comm add (s ++ _)). rewrite <- !app_assoc. apply Permutation_app_head, Permutation_app_head.
    rewrite (app_assoc (secs w)). apply Permutation_app_comm. }
  destruct (leads_split b d f g0 b0 l g br g' Le) as [(Eb & pre & kids & post & -> & _ & _ & ->)|(Eb & pre & w & post & -> & Co & L & ->)]; cbn [secs]; apply Mid; [apply HP|]. apply Forall_elt in IH. exact (IH g br L HP).
Qed.

(** ** The tree at any time: buses up to [last] are in use. *)
Definition inv (D : pcie_id -> Prop) (E : pcie_id -> Z -> Prop) (last : Z) (z : net) : Prop :=
  (exists f l, z = Net f true l /\ host_like f) /\ caught D E z /\ NoDup (secs z) /\ (forall s, In s (secs z) -> 0 <= s <= last) /\ (forall i, D i -> bus i <= last) /\ forall i c, E i c -> bus i <= last.
Lemma inv_root D E last z : inv D E last z -> live z = true /\ fst (bus_range (net_fn z)) = 0.
Proof. intros ((f & l & -> & _ & _ & B) & _). unfold live, alive. cbn [net_fn net_br]. rewrite B. split; reflexivity. Qed.
Lemma host_stays g' b d f z : (exists f l, z = Net f true l /\ host_like f) -> exists h l, instead g' b d f z = Net h true l /\ host_like h.
Proof. intros (h & l & -> & H). cbn [instead]. eexists. eexists. split; [reflexivity|exact H]. Qed.
Lemma inv_less (D D' : pcie_id -> Prop) E last z : (forall i, D' i -> D i) -> inv D E last z -> inv D' E last z.
Proof.
  intros H (A & C & B). split; [exact A|]. split; [|destruct B as (B1 & B2 & B3 & B4); split; [exact B1|]; split; [exact B2|]; split; [auto|exact B4]].
  clear A B. induction z as [g0 b0 l IH] using net_rect'. inversion C as [? ? ? C1 C2 C3 C4]; subst. constructor; [|exact C2|exact C3|].
  - intros A d f w Fi. destruct (C1 A d f w Fi) as [P Q]. split; [exact P|]. auto.
  - rewrite Forall_forall in *. auto.
Qed.
(** An access that leaves the buses of the function as they are *)
Lemma inv_access D E last z b d f g br g' : inv D E last z -> 0 <= b <= last -> leads b d f z = Some (g, br) -> f_id g' = mkId b d f -> alive g' br = alive g br -> (alive g br = true -> fst (bus_range g') = fst (bus_range g)) ->
  (br = true -> whole g -> whole g') -> inv (fun i => D i \/ i = mkId b d f) E last (instead g' b d f z).
Proof.
  intros I Hb Le Ig Al Se Wh. pose proof (inv_root D E last z I) as [Li Se0]. destruct I as (H & C & N & R & S & T). split; [exact (host_stays g' b d f z H)|].
  assert (P : Permutation (secs (instead g' b d f z)) ([] ++ secs z)).
  { apply (secs_at g' b d f [] z g br Le). intros kids. cbn [secs app]. rewrite Al. destruct (alive g br); [rewrite Se by reflexivity|]; reflexivity. }
  cbn [app] in P. split; [|split; [exact (Permutation_NoDup (Permutation_sym P) N)|]].
  - apply (caught_at D _ E E b d f g' (fun i h => h) (fun i c _ => conj (fun h => h) (fun h => h)) Ig z g br Li); [rewrite Se0; destruct (Z.eq_dec b 0); [left; auto|right; lia]|exact Le|exact N|exact C| |intros X c; rewrite X, Al; split; intros [A B]; rewrite (Se A) in *; auto|exact Wh].
    intros kids Nb Ck. apply (caught_more D (fun i => D i \/ i = mkId b d f) E E b d f (fun i h => h) (fun i c _ => conj (fun h => h) (fun h => h))) in Ck; [|exact Nb]. inversion Ck as [? ? ? C1 C2 C3 C4]; subst. constructor; [|rewrite Al; exact C2|exact C3|exact C4].
    intros A. rewrite Al in A. rewrite (Se A). exact (C1 A).
  - split; [intros s Hs; apply R; exact (Permutation_in _ P Hs)|]. split; [|exact T]. intros i [Hi| ->]; [auto|cbn [bus]; lia].
Qed.
(** The write that gives a bridge its first buses *)
Definition also (E : pcie_id -> Z -> Prop) (i : pcie_id) (c : Z) : pcie_id -> Z -> Prop := fun j e => E j e \/ (j = i /\ e = c).
Lemma inv_open D (E : pcie_id -> Z -> Prop) last z b d f g br g' : inv D E last z -> 0 <= last -> 0 <= b <= last -> leads b d f z = Some (g, br) -> f_id g' = mkId b d f -> alive g br = false -> alive g' br = true -> fst (bus_range g') = last + 1 ->
  (br = true -> whole g -> whole g') -> inv D (also E (mkId b d f) (last + 1)) (last + 1) (instead g' b d f z).
Proof.
  intros I L0 Hb Le Ig Al Al' Se Wh. pose proof (inv_root D E last z I) as [Li Se0]. destruct I as (H & C & N & R & S & T). split; [exact (host_stays g' b d f z H)|].
  assert (P : Permutation (secs (instead g' b d f z)) ([last + 1] ++ secs z)).
  { apply (secs_at g' b d f _ z g br Le). intros kids. cbn [secs]. rewrite Al, Al', Se. reflexivity. }
  assert (HE : forall i c, i <> mkId b d f -> (also E (mkId b d f) (last + 1) i c <-> E i c)) by (intros i c Ni; unfold also; tauto).
  split; [|split; [|split; [|split]]].
  - apply (caught_at D D E _ b d f g' (fun i h => or_introl h) HE Ig z g br Li); [rewrite Se0; destruct (Z.eq_dec b 0); [left; auto|right; lia]|exact Le|exact N|exact C| | |exact Wh].
    + intros kids Nb Ck. apply (caught_more D D E _ b d f (fun i h => or_introl h) HE) in Ck; [|exact Nb]. inversion Ck as [? ? ? C1 C2 C3 C4]; subst. specialize (C2 Al). constructor; [|intros _; exact C2|exact C3|exact C4].
      intros A d1 f1 w Fi. apply find_some in Fi. destruct Fi as [Fi _]. rewrite Forall_forall in C2. rewrite (C2 w Fi), Se. split; [|intros Di; apply S in Di; cbn [bus] in Di; lia].
      intros c. split; [|intros [X _]; discriminate X]. intros X. exfalso. revert X. unfold also. intros [X|[X _]]; [|injection X; lia]. 
      apply T in X. cbn [bus] in X. lia.
    + intros X c. unfold also. rewrite X, Al, Al', Se. split; [intros [[Y _]|[_ ->]]; [discriminate Y|auto]|intros [_ <-]; right; auto].
  - apply (Permutation_NoDup (Permutation_sym P)). cbn [app]. constructor; [|exact N]. intros I. apply R in I. lia.
  - intros s Hs. apply (Permutation_in _ P) in Hs. cbn [app] in Hs. destruct Hs as [<- |Hs]; [lia|]. apply R in Hs. lia.
  - intros i Hi. apply S in Hi. lia.
  - intros i c [Hi|[-> _]]; [apply T in Hi; lia|cbn [bus]; lia].
Qed.
(** The bridges with numbers in [E] have buses, others do not. *)
Lemma inv_buses D E last z b d f g br : inv D E last z -> 0 <= b -> leads b d f z = Some (g, br) -> forall c, E (mkId b d f) c <-> alive g br = true /\ fst (bus_range g) = c.
Proof.
  intros I Hb Le. pose proof (inv_root D E last z I) as [Li Se0]. destruct I as (_ & C & _). assert (Hb' : b = fst (bus_range (net_fn z)) \/ 0 < b) by (rewrite Se0; lia). clear Se0 Hb.
  revert Li Hb' Le C. induction z as [g0 b0 l IH] using net_rect'. intros Li Hb Le C. inversion C as [? ? ? C1 C2 C3 C4]; subst. unfold live in Li. cbn [net_fn net_br] in Li, Hb.
  destruct (leads_split b d f g0 b0 l g br g Le) as [(Eb & pre & kids & post & El & F & Si & _)|(Eb & pre & w & post & El & Co & L & _)]; subst l.
  - destruct (C1 Li d f (Net g br kids) (find_first _ _ _ _ F Si)) as [P _]. rewrite <- Eb in P. exact P.
  - assert (B0 : 0 < b) by lia. apply Forall_elt in IH. apply Forall_elt in C4. exact (IH (covers_live b w B0 Co) (or_intror B0) L C4).
Qed.
