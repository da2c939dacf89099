From Coq Require Import Permutation Sorted.
From Verif Require Import Base BaseProofs ModelUtils ModelTlp ModelAttrs ModelCaps ModelCapList ModelConfig ModelFunction ModelRoute
  SpecUtils SpecBar SpecRoute SpecNumbers ProofsUtils ProofsMem ProofsCaps ProofsBar ProofsRoute ProofsRouteNum.

Lemma first_fn_spec t ty : fmt_type t = Ok ty -> route_of ty t <> TNone -> forall l ls k, Forall2 (fun x b => bars (fst x) (snd x) b (route_of ty t)) l ls ->
  exists m, first_fn k l t = Ok m /\
  match m with
  | Some m => exists j x b, m = (k + j)%nat /\ nth_error l j = Some x /\ nth_error ls j = Some b /\ own (fst x) b (route_of ty t) = true /\
      forall j' x' b', (j' < j)%nat -> nth_error l j' = Some x' -> nth_error ls j' = Some b' -> own (fst x') b' (route_of ty t) = false
  | None => forall j x b, nth_error l j = Some x -> nth_error ls j = Some b -> own (fst x) b (route_of ty t) = false
  end.
Proof.
  intros T N l ls k H. revert k. induction H as [|[f n] b l ls Hb H IH]; intros k.
  - exists None. split; [reflexivity|]. intros [|j]; discriminate.
  - cbn [first_fn fst snd] in *. rewrite (match_tlp_spec f n b t ty T N Hb). cbn [bind]. destruct (own f b (route_of ty t)) eqn:O.
    + exists (Some k). split; [reflexivity|]. exists 0%nat, (f, n), b. split; [lia|]. split; [reflexivity|]. split; [reflexivity|]. split; [exact O|]. intros j' x' b' L. lia.
    + destruct (IH (S k)) as (m & E & Q). exists m. split; [exact E|]. destruct m as [m|].
      * destruct Q as (j & x & b0 & M & X & Y & Z & W). exists (S j), x, b0. split; [lia|]. split; [exact X|]. split; [exact Y|]. split; [exact Z|].
        intros [|j'] x' b' L X' Y'; [cbn in X', Y'; injection X' as <-; injection Y' as <-; exact O|]. apply (W j' x' b' ltac:(lia) X' Y').
      * intros [|j] x b0 X Y; [cbn in X, Y; injection X as <-; injection Y as <-; exact O|]. exact (Q j x b0 X Y).
Qed.
Lemma Forall2_len {A B} (R : A -> B -> Prop) l l' : Forall2 R l l' -> length l = length l'.
Proof. induction 1; cbn [length]; congruence. Qed.
Lemma bars_rebus r ls b l : Forall2 (fun x e => bars (fst x) (snd x) e r) l ls -> Forall2 (fun x e => bars (fst x) (snd x) e r) (map (rebus b) l) ls.
Proof. induction 1 as [|x e l ls H _ IH]; constructor; [exact H|exact IH]. Qed.
Lemma set_bus_spec b d : 0 <= b < 256 -> exists d', set_bus b d = Ok d' /\ d_bus d' = b /\ (d_fns d' = d_fns d \/ d_fns d' = map (rebus b) (d_fns d)).
Proof.
  intros B. unfold set_bus. replace ((b <? 0) || (b >? 255)) with false by lia. destruct (Z.eqb_spec (d_bus d) b) as [E|_]; eexists; (split; [reflexivity|]); split; auto.
Qed.
Lemma dev_recv t ty d ls : tlp_check t = Ok true -> fmt_type t = Ok ty -> route_of ty t <> TNone -> 0 <= bus (completer_id t) < 256 ->
  Forall2 (fun x b => bars (fst x) (snd x) b (route_of ty t)) (d_fns d) ls ->
  exists d' acts, dev_upstream_recv t d = Ok (d', acts) /\
  (if cfg0 ty then d_bus d' = bus (completer_id t) /\ (d_fns d' = d_fns d \/ d_fns d' = map (rebus (bus (completer_id t))) (d_fns d)) else d' = d) /\
  ((exists k x b, acts = [DTo k t] /\ nth_error (d_fns d') k = Some x /\ nth_error ls k = Some b /\ own (fst x) b (route_of ty t) = true /\
      forall k' x' b', (k' < k)%nat -> nth_error (d_fns d') k' = Some x' -> nth_error ls k' = Some b' -> own (fst x') b' (route_of ty t) = false) \/
   ((forall k x b, nth_error (d_fns d') k = Some x -> nth_error ls k = Some b -> own (fst x) b (route_of ty t) = false) /\
    (if non_posted ty then exists c, acts = [DFree t; DAns c] /\ is_ur c t (mkId (d_bus d') 0 0) else acts = [DFree t]))).
Proof.
  intros C T N B F. unfold dev_upstream_recv. rewrite C, T. cbn [bind py_assert].
  assert (S : exists d', (match ty with CFG_READ_0 | CFG_WRITE_0 => set_bus (bus (completer_id t)) d | _ => Ok d end) = Ok d' /\
    (if cfg0 ty then d_bus d' = bus (completer_id t) /\ (d_fns d' = d_fns d \/ d_fns d' = map (rebus (bus (completer_id t))) (d_fns d)) else d' = d) /\
    Forall2 (fun x b => bars (fst x) (snd x) b (route_of ty t)) (d_fns d') ls).
  { destruct (set_bus_spec _ d B) as (d' & E & Q1 & Q2). 
    assert (F' : Forall2 (fun x b => bars (fst x) (snd x) b (route_of ty t)) (d_fns d') ls) by (destruct Q2 as [-> | ->]; [exact F|apply bars_rebus; exact F]).
    destruct ty; cbn [cfg0]; try (exists d; split; [reflexivity|]; split; [reflexivity|exact F]); (exists d'; split; [exact E|]; split; [split; assumption|exact F']). }
  destruct S as (d' & -> & Q & F'). cbn [bind].
  destruct (first_fn_spec t ty T N (d_fns d') ls 0 F') as (m & -> & M). cbn [bind]. destruct m as [m|].
  - destruct M as (j & x & b & -> & X & Y & Z & W). eexists d', _. split; [reflexivity|]. split; [exact Q|]. left. exists j, x, b. repeat (split; [first [reflexivity|assumption]|]). exact W.
  - rewrite (unrouted_spec _ _ _ N). cbn [bind]. destruct (non_posted ty).
    + rewrite ur_check. cbn [bind py_assert]. eexists d', _. split; [reflexivity|]. split; [exact Q|]. right. split; [exact M|]. eexists. split; [reflexivity|apply ur_spec].
    + eexists d', _. split; [reflexivity|]. split; [exact Q|]. right. split; [exact M|reflexivity].
Qed.
(** Configuration requests in a device with numbered functions. *)
Lemma dev_config t ty d ls : tlp_check t = Ok true -> fmt_type t = Ok ty -> cfg0 ty = true -> 0 <= bus (completer_id t) < 256 ->
  Forall2 (fun x b => bars (fst x) (snd x) b (route_of ty t)) (d_fns d) ls -> StronglySorted Z.lt (nums d) -> Forall (fun x => device (f_id (fst x)) = 0) (d_fns d) ->
  exists d' acts, dev_upstream_recv t d = Ok (d', acts) /\ nums d' = nums d /\ d_bus d' = bus (completer_id t) /\
  (device (completer_id t) = 0 -> forall k, nth_error (nums d) k = Some (func (completer_id t)) -> acts = [DTo k t]) /\
  (device (completer_id t) <> 0 \/ ~ In (func (completer_id t)) (nums d) -> exists c, acts = [DFree t; DAns c] /\ is_ur c t (mkId (bus (completer_id t)) 0 0)).
Proof.
  intros C T Z0 B F S D0. assert (R : route_of ty t = TLocal (completer_id t)) by (destruct ty; try discriminate Z0; reflexivity).
  destruct (dev_recv t ty d ls C T ltac:(rewrite R; discriminate) B F) as (d' & acts & E & Q & H). rewrite Z0, R in *. destruct Q as [Qb Qf]. cbn [own] in H.
  assert (Nd : nums d' = nums d). { unfold nums. destruct Qf as [-> | ->]; [reflexivity|]. rewrite map_map. apply map_ext. intros [f n]. reflexivity. }
  assert (D0' : Forall (fun x => device (f_id (fst x)) = 0) (d_fns d')).
  { destruct Qf as [-> | ->]; [exact D0|]. apply Forall_forall. intros x Hx. apply in_map_iff in Hx. destruct Hx as (y & <- & Iy). rewrite Forall_forall in D0. exact (D0 y Iy). }
  assert (L : length ls = length (d_fns d')). { rewrite <- (Forall2_len _ _ _ F). destruct Qf as [-> | ->]; [reflexivity|]. rewrite map_length. reflexivity. }
  exists d', acts. split; [exact E|]. split; [exact Nd|]. split; [exact Qb|].
  assert (NT : forall k x, nth_error (d_fns d') k = Some x -> nth_error (nums d) k = Some (fnum x)) by (intros k x X; rewrite <- Nd; unfold nums; exact (map_nth_error fnum k _ X)).
  assert (DZ : forall k x, nth_error (d_fns d') k = Some x -> device (f_id (fst x)) = 0) by (intros k x X; rewrite Forall_forall in D0'; apply D0'; eapply nth_error_In; exact X).
  split.
  - intros Hd k Hk. pose proof (nodup_sorted _ S) as ND.
    assert (X : exists x, nth_error (d_fns d') k = Some x).
    { destruct (nth_error (d_fns d') k) as [x|] eqn:X; [exists x; reflexivity|]. exfalso. apply nth_error_None in X. rewrite <- Nd in Hk. unfold nums in Hk.
      assert (k < length (map fnum (d_fns d')))%nat by (apply nth_error_Some; congruence). rewrite map_length in *. lia. }
    destruct X as [x X]. pose proof (NT k x X) as Nx. rewrite Hk in Nx. injection Nx as Nx.
    assert (Y : exists b, nth_error ls k = Some b).
    { destruct (nth_error ls k) as [b|] eqn:Y; [exists b; reflexivity|]. exfalso. apply nth_error_None in Y. assert (k < length (d_fns d'))%nat by (apply nth_error_Some; congruence). lia. }
    destruct Y as [b Y]. unfold fnum in Nx. destruct H as [(k' & x' & b' & A & X' & Y' & O & _)|(H & _)].
    + rewrite A. f_equal. f_equal. pose proof (NT k' x' X') as Nx'. unfold fnum in Nx'. assert (func (f_id (fst x')) = func (completer_id t)) by lia.
      apply (proj1 (NoDup_nth_error _) ND); [apply nth_error_Some; congruence|congruence].
    + specialize (H k x b X Y). rewrite (DZ k x X), Hd, <- Nx, !Z.eqb_refl in H. cbn in H. discriminate H.
  - intros Hn. destruct H as [(k' & x' & b' & A & X' & Y' & O & _)|(_ & H)].
    + exfalso. rewrite (DZ k' x' X') in O. pose proof (NT k' x' X') as Nx'. unfold fnum in Nx'. destruct Hn as [Hn|Hn]; [lia|]. apply Hn.
      replace (func (completer_id t)) with (func (f_id (fst x'))) by lia. eapply nth_error_In. exact Nx'.
    + replace (non_posted ty) with true in H by (destruct ty; try discriminate Z0; reflexivity). rewrite Qb in H. exact H.
Qed.
