From Coq Require Import Permutation Sorted.
From Verif Require Import Base BaseProofs ModelUtils ModelTlp ModelAttrs ModelCaps ModelCapList ModelConfig ModelFunction ModelRoute
  SpecUtils SpecBar SpecRoute SpecNumbers ProofsUtils ProofsMem ProofsCaps ProofsBar ProofsRoute.

(** ** Sorting *)
Section Sort.
Variable A : Type.
Variable le : A -> A -> bool.
Hypothesis total : forall x y, le x y = true \/ le y x = true.
Hypothesis trans : forall x y z, le x y = true -> le y z = true -> le x z = true.
Lemma insert_by_perm x l : Permutation (insert_by le x l) (x :: l).
Proof.
  induction l as [|y l IH]; [reflexivity|]. cbn [insert_by]. destruct (le x y); [reflexivity|].
  rewrite IH. apply perm_swap.
Qed.
Lemma sort_by_perm l : Permutation (sort_by le l) l.
Proof. induction l as [|x l IH]; [reflexivity|]. cbn [sort_by fold_right]. rewrite insert_by_perm. apply perm_skip. exact IH. Qed.
Lemma insert_by_sorted x l : StronglySorted (fun a b => le a b = true) l -> StronglySorted (fun a b => le a b = true) (insert_by le x l).
Proof.
  induction l as [|y l IH]; intros H; [repeat constructor|]. cbn [insert_by]. apply StronglySorted_inv in H. destruct H as [H F].
  destruct (le x y) eqn:E.
  - constructor; [constructor; assumption|]. constructor; [exact E|]. rewrite Forall_forall in *. intros z Hz. exact (trans _ _ _ E (F z Hz)).
  - constructor; [apply IH; exact H|]. rewrite Forall_forall in *. intros z Hz. apply (Permutation_in _ (insert_by_perm x l)) in Hz. destruct Hz as [<-|Hz]; [|auto].
    destruct (total x y); congruence.
Qed.
Lemma sort_by_sorted l : StronglySorted (fun a b => le a b = true) (sort_by le l).
Proof. induction l as [|x l IH]; [constructor|]. apply insert_by_sorted. exact IH. Qed.
End Sort.

(** ** Ports of a switch *)
Lemma dnum_total x y : dnum_le x y = true \/ dnum_le y x = true.
Proof. unfold dnum_le. lia. Qed.
Lemma dnum_trans x y z : dnum_le x y = true -> dnum_le y z = true -> dnum_le x z = true.
Proof. unfold dnum_le. lia. Qed.
Lemma free_from_spec : forall l d, StronglySorted (fun a b => dnum_le a b = true) l -> Forall (fun e => d - 1 <= device e < 32) l -> d <= 32 ->
  match free_from d l with
  | Some n => least_free d (map device l) n /\ n < 32
  | None => forall m, d <= m < 32 -> In m (map device l)
  end.
Proof.
  induction l as [|e l IH]; intros d S F D; cbn [free_from map].
  - destruct (Z.ltb_spec d 32); [|intros m Hm; lia]. split; [|lia]. split; [lia|]. split; [intros []|]. intros m Hm. lia.
  - apply StronglySorted_inv in S. destruct S as [S G]. apply Forall_cons_iff in F. destruct F as [Fe F]. rewrite Forall_forall in G, F.
    destruct (Z.gtb_spec (device e) d) as [E|E].
    + split; [|lia]. split; [lia|]. split; [|intros m Hm; lia]. intros [I|I]; [lia|]. apply in_map_iff in I. destruct I as (x & Hx & Ix).
      specialize (G x Ix). unfold dnum_le in G. lia.
    + assert (F' : Forall (fun x => device e + 1 - 1 <= device x < 32) l).
      { apply Forall_forall. intros x Hx. specialize (G x Hx). specialize (F x Hx). unfold dnum_le in G. lia. }
      specialize (IH (device e + 1) S F' ltac:(lia)). destruct (free_from (device e + 1) l) as [n|].
      * destruct IH as [[L [N B]] X]. split; [|exact X]. split; [lia|]. split; [intros [I|I]; [lia|exact (N I)]|].
        intros m Hm. destruct (Z.eq_dec m (device e)) as [->|]; [left; reflexivity|]. right. apply B. lia.
      * intros m Hm. destruct (Z.eq_dec m (device e)) as [->|]; [left; reflexivity|]. right. apply IH. lia.
Qed.
Lemma next_free_dev l : next_free_device_number 1 l = free_from 1 (sort_by dnum_le l).
Proof. unfold next_free_device_number. destruct (sort_by dnum_le l); reflexivity. Qed.
Lemma ports l : Forall id_ok l ->
  match add_endpoint 1 l with
  | Ok l' => exists n, least_free 1 (map device l) n /\ n < 32 /\ Permutation l' (mkId 0 n 0 :: l)
  | Err e => e = TypeError /\ forall m, 1 <= m < 32 -> In m (map device l)
  end.
Proof.
  intros F. unfold add_endpoint. rewrite next_free_dev. set (s := sort_by dnum_le l).
  assert (P : Permutation s l) by apply sort_by_perm.
  assert (Pm : forall m, In m (map device s) <-> In m (map device l)) by (intros m; split; apply Permutation_in; [|symmetry]; apply Permutation_map; exact P).
  assert (Fs : Forall (fun e => 1 - 1 <= device e < 32) s).
  { apply Forall_forall. intros x Hx. rewrite Forall_forall in F. destruct (F x (Permutation_in _ P Hx)) as (_ & D & _). lia. }
  pose proof (free_from_spec s 1 (sort_by_sorted _ _ dnum_total dnum_trans l) Fs ltac:(lia)) as H.
  destruct (free_from 1 s) as [n|].
  - destruct H as [(L & N & B) X]. unfold id_new_opt. cbn [Z.ltb Z.compare Z.gtb orb]. replace ((n <? 0) || (n >? 31)) with false by lia.
    rewrite pcie_id_new_ok by lia. cbn [bind]. exists n. split; [split; [lia|]; split; [rewrite <- Pm; exact N|intros m Hm; apply Pm; apply B; exact Hm]|]. split; [exact X|].
    unfold append_endpoint. rewrite sort_by_perm, <- Permutation_cons_append. apply perm_skip. exact P.
  - cbn. split; [reflexivity|]. intros m Hm. apply Pm. apply H. exact Hm.
Qed.

(** ** Functions of a device *)
Definition lef (x y : fnc * Z) : bool := fnum x <=? fnum y.
Definition numbered (d : dev) : Prop := StronglySorted Z.lt (nums d) /\ Forall (fun n => 0 <= n < 8) (nums d).
Lemma lef_total x y : lef x y = true \/ lef y x = true.
Proof. unfold lef. lia. Qed.
Lemma lef_trans x y z : lef x y = true -> lef y z = true -> lef x z = true.
Proof. unfold lef. lia. Qed.
Lemma sort_fns_perm l : Permutation (sort_fns l) l.
Proof. apply sort_by_perm. Qed.
Lemma sorted_id l : StronglySorted Z.lt (map fnum l) -> sort_fns l = l.
Proof.
  induction l as [|x l IH]; intros H; [reflexivity|]. cbn [map] in H. apply StronglySorted_inv in H. destruct H as [H F].
  cbn [sort_fns sort_by fold_right]. change (fold_right _ [] l) with (sort_fns l). rewrite (IH H). destruct l as [|y l]; [reflexivity|].
  cbn [insert_by]. cbn [map] in F. apply Forall_cons_iff in F. destruct F as [F _]. replace (fnum x <=? fnum y) with true by lia. reflexivity.
Qed.
Lemma gap_spec : forall l i, StronglySorted Z.lt (map fnum l) -> Forall (fun n => i <= n) (map fnum l) ->
  match gap i l with
  | Some n => least_free i (map fnum l) n /\ exists y, In y (map fnum l) /\ n < y
  | None => forall m, In m (map fnum l) <-> i <= m < i + zlen l
  end.
Proof.
  induction l as [|x l IH]; intros i S F; cbn [gap map] in *.
  - intros m. cbn. lia.
  - apply StronglySorted_inv in S. destruct S as [S G]. apply Forall_cons_iff in F. destruct F as [F _]. rewrite Forall_forall in G.
    destruct (Z.eqb_spec (fnum x) i) as [E|E]; cbn [negb].
    + assert (F' : Forall (fun n => i + 1 <= n) (map fnum l)) by (apply Forall_forall; intros n Hn; specialize (G n Hn); lia).
      specialize (IH (i + 1) S F'). destruct (gap (i + 1) l) as [n|].
      * destruct IH as ((L & N & B) & y & Iy & Hy). split; [|exists y; split; [right; exact Iy|exact Hy]].
        split; [lia|]. split; [intros [I|I]; [lia|exact (N I)]|]. intros m Hm. destruct (Z.eq_dec m i) as [->|]; [left; exact E|right; apply B; lia].
      * intros m. cbn [In]. rewrite IH, zlen_cons. pose proof (zlen_nonneg l). lia.
    + split; [|exists (fnum x); split; [left; reflexivity|lia]]. split; [lia|]. split; [|intros m Hm; lia]. intros [I|I]; [lia|]. specialize (G i I). lia.
Qed.
Lemma nodup_sorted l : StronglySorted Z.lt l -> NoDup l.
Proof.
  induction l as [|x l IH]; intros S; constructor; apply StronglySorted_inv in S; destruct S as [S F]; [|auto]. intros I. rewrite Forall_forall in F. specialize (F x I). lia.
Qed.
Lemma next_free_spec d : numbered d ->
  match next_free_function_number (d_fns d) with
  | Some n => least_free 0 (nums d) n /\ n < 8
  | None => forall m, 0 <= m < 8 -> In m (nums d)
  end.
Proof.
  intros [S F]. unfold next_free_function_number, nums in *. set (l := d_fns d) in *. clearbody l.
  assert (F0 : Forall (fun n => 0 <= n) (map fnum l)) by (eapply Forall_impl; [|exact F]; cbv beta; lia).
  pose proof (gap_spec l 0 S F0) as G. pose proof (nodup_sorted _ S) as ND.
  destruct l as [|x l]; [cbn; split; [|lia]; split; [lia|]; split; [intros []|]; intros m Hm; lia|].
  destruct (gap 0 (x :: l)) as [n|].
  - destruct G as (G & y & Iy & Hy). split; [exact G|]. rewrite Forall_forall in F. specialize (F y Iy). lia.
  - destruct (Z.ltb_spec (zlen (x :: l)) 8) as [H|H].
    + split; [|exact H]. split; [pose proof (zlen_nonneg (x :: l)); lia|]. split; [intros I; apply G in I; lia|]. intros m Hm. apply G. lia.
    + intros m Hm. apply G. lia.
Qed.

Lemma in_existsb n l : existsb (fun y => fnum y =? n) l = true <-> In n (map fnum l).
Proof.
  rewrite existsb_exists, in_map_iff. split; intros (x & A & B); exists x; [split; [lia|exact A]|split; [exact B|lia]].
Qed.
Lemma strict l : StronglySorted (fun a b => lef a b = true) l -> NoDup (map fnum l) -> StronglySorted Z.lt (map fnum l).
Proof.
  induction l as [|x l IH]; intros S N; [constructor|]. apply StronglySorted_inv in S. destruct S as [S F]. cbn [map] in *. apply NoDup_cons_iff in N. destruct N as [N0 N].
  constructor; [auto|]. rewrite Forall_forall in *. intros y Hy. pose proof Hy as I. apply in_map_iff in Hy. destruct Hy as (z & <- & Iz). specialize (F z Iz). unfold lef in F.
  assert (fnum x <> fnum z) by (intros E; apply N0; rewrite E; exact I). lia.
Qed.
Definition renum (l : list (fnc * Z)) : list (fnc * Z) :=
  if 1 <? zlen l then map (fun y => (with_attr (aset fn_multifunction_device 1) (fst y), snd y)) l else l.
Lemma renum_nums l : map fnum (renum l) = map fnum l.
Proof. unfold renum. destruct (1 <? zlen l); [|reflexivity]. rewrite map_map. apply map_ext. intros [f n]. reflexivity. Qed.
Lemma add_spec x d : numbered d -> 0 <= fnum x < 8 ->
  match add_function x d with
  | Ok d' => ~ In (fnum x) (nums d) /\ d_bus d' = d_bus d /\ d_fns d' = renum (sort_fns (d_fns d ++ [x])) /\ Permutation (nums d') (fnum x :: nums d) /\ numbered d'
  | Err e => e = PyException /\ In (fnum x) (nums d)
  end.
Proof.
  intros [S F] X. unfold add_function. destruct (existsb _ (d_fns d)) eqn:E.
  - apply in_existsb in E. split; [reflexivity|exact E].
  - assert (N : ~ In (fnum x) (nums d)) by (intros I; apply in_existsb in I; congruence).
    split; [exact N|]. split; [reflexivity|]. split; [reflexivity|]. change (if 1 <? _ then _ else _) with (renum (sort_fns (d_fns d ++ [x]))).
    assert (P : Permutation (nums (mkDev (d_bus d) (renum (sort_fns (d_fns d ++ [x]))))) (fnum x :: nums d)).
    { unfold nums. cbn [d_fns]. rewrite renum_nums, (Permutation_map fnum (sort_fns_perm _)), map_app. cbn [map]. symmetry. apply Permutation_cons_append. }
    split; [exact P|]. split.
    + unfold nums. cbn [d_fns]. rewrite renum_nums. apply strict; [apply sort_by_sorted; [exact lef_total|exact lef_trans]|].
      apply (Permutation_NoDup (l := fnum x :: nums d)); [|constructor; [exact N|apply nodup_sorted; exact S]].
      rewrite <- P. unfold nums. cbn [d_fns]. rewrite renum_nums. reflexivity.
    + apply Forall_forall. intros n Hn. apply (Permutation_in _ P) in Hn. destruct Hn as [<-|Hn]; [exact X|]. rewrite Forall_forall in F. exact (F n Hn).
Qed.
Lemma append_spec x d : numbered d -> 0 <= d_bus d < 256 ->
  match append_function x d with
  | Ok d' => exists n, least_free 0 (nums d) n /\ n < 8 /\ d_bus d' = d_bus d /\
      d_fns d' = renum (sort_fns (d_fns d ++ [(with_id (mkId (d_bus d) 0 n) (fst x), snd x)])) /\ Permutation (nums d') (n :: nums d) /\ numbered d'
  | Err e => e = TypeError /\ forall m, 0 <= m < 8 -> In m (nums d)
  end.
Proof.
  intros N B. unfold append_function. cbn [d_bus d_fns]. rewrite (sorted_id _ (proj1 N)).
  pose proof (next_free_spec d N) as H. unfold id_new_opt. replace ((d_bus d <? 0) || (d_bus d >? 255)) with false by lia. cbn [Z.ltb Z.compare Z.gtb orb].
  destruct (next_free_function_number (d_fns d)) as [n|]; [|cbn; split; [reflexivity|exact H]].
  destruct H as [(L & U & G) X]. rewrite pcie_id_new_ok by lia. cbn [bind].
  replace (mkDev (d_bus d) (d_fns d)) with d by (destruct d; reflexivity).
  pose proof (add_spec (with_id (mkId (d_bus d) 0 n) (fst x), snd x) d N) as A. change (fnum (with_id _ (fst x), snd x)) with n in A. specialize (A ltac:(lia)).
  destruct (add_function _ d) as [d'|e]; [|exfalso; apply U; apply A].
  destruct A as (A1 & A2 & A3 & A4 & A5). exists n. repeat (split; [first [assumption|split; [|split]; assumption]|]). exact A5.
Qed.
Lemma set_bus_nums b d d' : set_bus b d = Ok d' -> nums d' = nums d /\ d_bus d' = b /\ 0 <= b < 256.
Proof.
  unfold set_bus. destruct ((b <? 0) || (b >? 255)) eqn:E; [discriminate|]. destruct (Z.eqb_spec (d_bus d) b); intros H; apply Ok_inj in H; subst.
  - split; [reflexivity|]. split; [reflexivity|lia].
  - split; [|split; [reflexivity|lia]]. unfold nums. cbn [d_fns]. rewrite map_map. apply map_ext. intros [f n']. reflexivity.
Qed.
Lemma run_numbered ops : forall d, Forall dop_ok ops -> numbered d -> 0 <= d_bus d < 256 -> numbered (dev_run ops d) /\ 0 <= d_bus (dev_run ops d) < 256.
Proof.
  induction ops as [|o ops IH]; intros d F N B; [split; assumption|]. apply Forall_cons_iff in F. destruct F as [Fo F]. cbn [dev_run fold_left].
  apply IH; [exact F| |]; destruct o as [x|x|b]; unfold dev_op.
  - pose proof (append_spec x d N B) as A. destruct (append_function x d); [destruct A as (n & _ & _ & _ & _ & _ & A); exact A|exact N].
  - pose proof (add_spec x d N Fo) as A. destruct (add_function x d); [destruct A as (_ & _ & _ & _ & A); exact A|exact N].
  - destruct (set_bus b d) as [d'|] eqn:E; [|exact N]. destruct (set_bus_nums _ _ _ E) as (A & _). unfold numbered. rewrite A. exact N.
  - pose proof (append_spec x d N B) as A. destruct (append_function x d) as [d'|]; [destruct A as (n & A); replace (d_bus d') with (d_bus d) by (symmetry; apply A)|]; exact B.
  - pose proof (add_spec x d N Fo) as A. destruct (add_function x d) as [d'|]; [replace (d_bus d') with (d_bus d) by (symmetry; apply A)|]; exact B.
  - destruct (set_bus b d) as [d'|] eqn:E; [|exact B]. destruct (set_bus_nums _ _ _ E) as (_ & -> & A). exact A.
Qed.
Lemma numbered0 b : numbered (mkDev b []).
Proof. split; constructor. Qed.
Lemma functions_numbered ops b : 0 <= b < 256 -> Forall dop_ok ops ->
  StronglySorted Z.lt (nums (dev_run ops (mkDev b []))) /\ Forall (fun n => 0 <= n < 8) (nums (dev_run ops (mkDev b []))).
Proof. intros B F. exact (proj1 (run_numbered ops _ F (numbered0 b) B)). Qed.
Lemma functions_append ops b x : 0 <= b < 256 -> Forall dop_ok ops ->
  let d := dev_run ops (mkDev b []) in
  match append_function x d with
  | Ok d' => exists n, least_free 0 (nums d) n /\ n < 8 /\ Permutation (nums d') (n :: nums d)
  | Err e => e = TypeError /\ forall m, 0 <= m < 8 -> In m (nums d)
  end.
Proof.
  intros B F d. destruct (run_numbered ops _ F (numbered0 b) B) as [N B']. pose proof (append_spec x d N B') as A.
  destruct (append_function x d); [|exact A]. destruct A as (n & A1 & A2 & _ & _ & A3 & _). exists n. split; [exact A1|]. split; assumption.
Qed.
Lemma functions_add ops b x : 0 <= b < 256 -> Forall dop_ok ops -> 0 <= fnum x < 8 ->
  let d := dev_run ops (mkDev b []) in
  match add_function x d with
  | Ok d' => ~ In (fnum x) (nums d) /\ Permutation (nums d') (fnum x :: nums d)
  | Err e => e = PyException /\ In (fnum x) (nums d)
  end.
Proof.
  intros B F X d. destruct (run_numbered ops _ F (numbered0 b) B) as [N B']. pose proof (add_spec x d N X) as A.
  destruct (add_function x d); [|exact A]. destruct A as (A1 & _ & _ & A3 & _). split; assumption.
Qed.
Lemma multifunction x d d' : add_function x d = Ok d' -> (1 < length (d_fns d'))%nat ->
  Forall (fun y => f_attr (fst y) fn_multifunction_device = 1) (d_fns d').
Proof.
  unfold add_function. destruct (existsb _ _); [discriminate|]. intros H L. apply Ok_inj in H. subst d'. cbn [d_fns] in *.
  set (s := sort_fns _) in *. destruct (Z.ltb_spec 1 (zlen s)) as [Q|Q]; [|unfold zlen in Q; lia].
  apply Forall_forall. intros y Hy. apply in_map_iff in Hy. destruct Hy as (z & <- & _). reflexivity.
Qed.
Lemma ports_distinct n : forall l, make_ports n = Ok l -> NoDup (map device l) /\ Forall id_ok l /\ length l = n.
Proof.
  induction n as [|n IH]; intros l; cbn [make_ports]; intros H; [apply Ok_inj in H; subst; repeat constructor|].
  destruct (make_ports n) as [l0|] eqn:E; [|discriminate]. cbn [bind] in H. destruct (IH _ eq_refl) as (N & F & L). clear IH.
  pose proof (ports l0 F) as P. rewrite H in P. destruct P as (k & (K1 & K2 & _) & K3 & P). split; [|split].
  - apply (Permutation_NoDup (l := map device (mkId 0 k 0 :: l0))); [apply Permutation_map; symmetry; exact P|]. constructor; assumption.
  - apply Forall_forall. intros x Hx. apply (Permutation_in _ P) in Hx. destruct Hx as [<-|Hx]; [unfold id_ok; cbn; lia|]. rewrite Forall_forall in F. exact (F x Hx).
  - rewrite (Permutation_length P). cbn [length]. congruence.
Qed.
