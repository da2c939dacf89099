(** The tree that enumeration leaves is arranged. *)
From Verif Require Import Base BaseProofs SpecTlp ModelUtils ModelTlp ModelAttrs ModelCapList ModelConfig ModelFunction ModelHost ModelPci ModelRoute ModelEnum ModelAssign SpecBar SpecRoute SpecEnum SpecAssign ModelTree SpecTree
  ModelTreeCfg ModelScan SpecScan ModelEnumCfg SpecEnumCfg ModelAssignCfg SpecAssignCfg SpecAfter ProofsEnum ProofsAssignFacts ProofsMps ProofsTreeAll ProofsAssignTree ProofsEnumEnd.

Lemma enum_arranged fuel m tg crs h z l h' b n l' : system fuel h z -> brought_up m h z l h' b n l' ->
  exists z' b' n', cfg_enumerate (fun dev => config_read (cfg_ask (tg dev)) (crs dev) dev) (fun dev => config_write (cfg_ask (tg dev)) dev) fuel m l z = Ok (z', b', n', l') /\ arranged m h z' l h' b n l'.
Proof.
  intros Sy U. destruct (enum_ends fuel m tg crs h z l h' b n l' Sy U) as (z1 & b' & E & A). destruct (assigned tg m h h' b b' z1 l l' n A) as (z' & n' & C & _ & Tk & f & zs & Eo & H & W & Ad & N).
  exists (open_net l l' z'), b', n'. split; [unfold cfg_enumerate; rewrite E; cbn [bind]; rewrite C; reflexivity|]. destruct U as (G & Sc & As & Li & _).
  split; [exact G|]. split; [exact Sc|]. split; [exact As|]. split; [exact Li|]. exists f, zs. auto 10.
Qed.
Lemma after_arranged fuel m tg crs h z l h' b n l' z' : enumerated_to fuel m tg crs h z l h' b n l' z' -> arranged m h z' l h' b n l'.
Proof.
  intros (Sy & U & b' & n' & E). destruct (enum_arranged fuel m tg crs h z l h' b n l' Sy U) as (z1 & b1 & n1 & E1 & A). rewrite E in E1. apply Ok_inj, pair_equal_spec in E1. destruct E1 as [E1 _]. apply pair_equal_spec in E1. destruct E1 as [E1 _].
  apply pair_equal_spec in E1. destruct E1 as [-> _]. exact A.
Qed.

(** ** Space *)
Definition need_ds (k : kind) : list (pfn * option pbus) -> Z :=
  fix go ds := match ds with [] => 0 | (p, o) :: r => need_fn k p + match o with Some c => need k c + granule k | None => 0 end + go r end.
Lemma need_eq k a b c ds : need k (PBus a b c ds) = need_ds k ds. Proof. reflexivity. Qed.
Lemma need_forget k y : forall y' n n', forget y = forget y' -> need_ds k [view n y] = need_ds k [view n' y'].
Proof.
  induction y as [x l IH] using hw_rect'. intros [x' l'] n n' F. assert (F2 : map forget l = map forget l') by (cbn [forget] in F; congruence).
  assert (D : forall a b, need_ds k (map (view a) l) = need_ds k (map (view b) l')).
  { intros a b. clear F. revert l' F2. induction l as [|y l IHl]; intros [|y' l'] F2; try discriminate F2; [reflexivity|]. injection F2 as E1 E2. inversion IH as [|? ? IH1 IH2]; subst.
    specialize (IHl IH2 l' E2). specialize (IH1 y' a b E1). cbn [map]. cbn [need_ds] in *. destruct (view a y), (view b y'). lia. }
  destruct x, x'. cbn in F. injection F. intros. subst. cbn [need_ds view]. unfold is_bridge. cbn. f_equal. f_equal. match goal with |- match (if ?b then _ else _) with _ => _ end = _ => destruct b; [|reflexivity] end. f_equal. apply (D _ _).
Qed.
Lemma need_forgets k a b l : forall l', map forget l = map forget l' -> need_ds k (map (view a) l) = need_ds k (map (view b) l').
Proof.
  induction l as [|y l IH]; intros [|y' l'] F; try discriminate F; [reflexivity|]. injection F as F1 F2. specialize (IH l' F2). pose proof (need_forget k y y' a b F1) as N. cbn [map need_ds] in *. destruct (view a y), (view b y'). lia.
Qed.
Lemma room_enough m h z l : good_system m h -> bridges h <= 256 -> (exists f zs, z = Net f true zs /\ host_like f /\ Forall2 shown (hw_below h) zs) ->
  (forall k, 0 < lim k l) -> (forall k, lim k l + space k h < top k) -> exists h' b n l', brought_up m h z l h' b n l' /\ forall k, lim k l <= lim k l' <= lim k l + space k h.
Proof.
  intros G Le (f & zs & Ez & H & Z) L0 LT. destruct (enumeration m h G Le) as (h' & Sc & Fo & _). destruct (enumerated_fine m h h' _ zs G Sc Z) as (_ & _ & F & Z').
  pose proof (shown_all_ok 0 _ _ Z' F) as Tk.
  assert (N : forall k, need k (PBus 0 0 (bridges h - 1) (map (view 0) (hw_below h'))) = space k h).
  { intros k. unfold space. rewrite !need_eq. apply need_forgets. destruct h as [x lh], h' as [x' lh']. cbn [forget hw_below] in *. injection Fo. auto. }
  destruct (ProofsAssignFacts.assign_room (PBus 0 0 (bridges h - 1) (map (view 0) (hw_below h'))) l Tk L0) as (n & l' & As & Li). 
  { intros k. rewrite N. specialize (LT k). lia. } unfold room in Li.
  exists h', (PBus 0 0 (bridges h - 1) (map (view 0) (hw_below h'))), n, l'. split.
  - split; [exact G|]. split; [exact Sc|]. split; [exact As|]. split; [intros k; specialize (Li k); rewrite N in Li; specialize (LT k); specialize (L0 k); lia|]. exists f, zs. auto.
  - intros k. rewrite <- N. exact (Li k).
Qed.
