(** TLPs that are routed by number go the same way in trees with the same numbers. *)
From Verif Require Import Base BaseProofs ModelUtils ModelTlp ModelAttrs ModelCapList ModelConfig ModelFunction ModelRoute ModelTree ModelTreeUp ModelFabric ModelTreeCfg SpecRoute SpecTree SpecTreeUp SpecTreeCfg
  ProofsUtils ProofsTreeUpAll.

Lemma same_eq f br l f' br' l' : same_numbers (Net f br l) (Net f' br' l') <-> f_id f' = f_id f /\ br' = br /\ (br = true -> bus_range f' = bus_range f) /\ Forall2 same_numbers l l'.
Proof.
  cbn [same_numbers].
  assert (G : forall l l', (fix go (l l' : list net) : Prop := match l, l' with [], [] => True | z :: l, z' :: l' => same_numbers z z' /\ go l l' | _, _ => False end) l l' <-> Forall2 same_numbers l l').
  { clear. induction l as [|z l IH]; intros [|z' l']; split; intros H; try (destruct H; fail); try (inversion H; fail); auto.
    - constructor; [apply H|]. apply IH. apply H.
    - inversion H; subst. split; [assumption|]. apply IH. assumption. }
  rewrite G. tauto.
Qed.
Lemma same_refl z : same_numbers z z.
Proof.
  induction z as [f br l IH] using net_rect'. apply same_eq. split; [reflexivity|]. split; [reflexivity|]. split; [reflexivity|]. induction IH; constructor; assumption.
Qed.
Lemma same_trans z : forall z1 z2, same_numbers z z1 -> same_numbers z1 z2 -> same_numbers z z2.
Proof.
  induction z as [f br l IH] using net_rect'. intros [f1 b1 l1] [f2 b2 l2] A B. apply same_eq in A, B. destruct A as (A1 & A2 & A3 & A4), B as (B1 & B2 & B3 & B4). subst b1 b2. apply same_eq.
  split; [congruence|]. split; [reflexivity|]. split; [intros E; rewrite B3, A3 by exact E; reflexivity|]. clear - IH A4 B4. revert l1 l2 A4 B4.
  induction IH as [|z l H _ IHl]; intros l1 l2 A4 B4; inversion A4; subst; inversion B4; subst; constructor; eauto.
Qed.

(** ** Bridges *)
Definition id_types : list tlp_type := [CFG_READ_0; CFG_WRITE_0; CFG_READ_1; CFG_WRITE_1; CPL; CPL_DATA; CPL_LOCKED; CPL_LOCKED_DATA].
Definition id_type (t : tlp) : Prop := exists ty, fmt_type t = Ok ty /\ In ty id_types.
Definition alike (f f' : fnc) : Prop := f_id f' = f_id f /\ bus_range f' = bus_range f.
Lemma same_match n n' f f' t : id_type t -> f_id f' = f_id f -> match_tlp n' f' t = match_tlp n f t.
Proof. intros (ty & T & I) E. unfold match_tlp. rewrite T, E. cbn [bind]. cbn [In id_types] in I. repeat (destruct I as [<-|I]; [reflexivity|]). destruct I. Qed.
Lemma same_secondary f f' t : id_type t -> bus_range f' = bus_range f -> match_secondary f' t = match_secondary f t.
Proof.
  intros (ty & T & I) E. unfold bus_range in E. injection E as E1 E2. unfold match_secondary. rewrite T, E1, E2. cbn [bind]. cbn [In id_types] in I. repeat (destruct I as [<-|I]; [reflexivity|]). destruct I.
Qed.
Definition acts_of (r : res (fnc * list act)) : res (list act) := '(_, a) <- r ;; Ok a.
Lemma alike_attr f f' a a' v v' (b b' : bool) : alike f f' -> a <> fn_sec_bus_num -> a <> fn_sub_bus_num -> a' <> fn_sec_bus_num -> a' <> fn_sub_bus_num ->
  alike (if b then with_attr (aset a v) f else f) (if b' then with_attr (aset a' v') f' else f').
Proof.
  intros [A B] N1 N2 N3 N4. unfold bus_range in B. injection B as B1 B2.
  assert (E : forall a v f x, x <> a -> f_attr (with_attr (aset a v) f) x = f_attr f x) by (intros; unfold with_attr; cbn [f_attr]; unfold aset; destruct (Pos.eqb_spec x a0); congruence).
  split; [destruct b, b'; exact A|]. unfold bus_range. destruct b, b'; rewrite ?E by congruence; congruence.
Qed.
Lemma sends_acts d t f f' : (exists g g', br_sends d t f = Ok g /\ br_sends d t f' = Ok g') \/ (exists e, br_sends d t f = Err e /\ br_sends d t f' = Err e).
Proof.
  destruct d; cbn [br_sends]; unfold fn_upstream_send; destruct (tlp_check t) as [ok|e]; cbn [bind]; [destruct ok; cbn [py_assert bind]; eauto|eauto|destruct ok; cbn [py_assert bind]; eauto|eauto].
Qed.
Lemma send_acts d t f f' : acts_of (send_to d t f') = acts_of (send_to d t f).
Proof. unfold send_to, acts_of. destruct (sends_acts d t f f') as [(g & g' & -> & ->)|(e & -> & ->)]; reflexivity. Qed.
Lemma unrouted_acts d ty t f f' : f_id f' = f_id f -> acts_of (br_unrouted d ty t f') = acts_of (br_unrouted d ty t f).
Proof.
  intros E. unfold br_unrouted, acts_of. rewrite E. destruct (unrouted ty (f_id f) t) as [[c|]|e]; cbn [bind]; try reflexivity.
  destruct (sends_acts d c f f') as [(g & g' & -> & ->)|(e & -> & ->)]; reflexivity.
Qed.
Lemma note_acts ta ma t f f' : acts_of (f <- note_status ta ma t f' ;; Ok (f, [Own t])) = acts_of (f <- note_status ta ma t f ;; Ok (f, [Own t])).
Proof. unfold note_status, acts_of. destruct (is_completion t) as [c|e]; reflexivity. Qed.
Lemma up_acts t f f' : id_type t -> alike f f' -> acts_of (br_upstream_recv t f') = acts_of (br_upstream_recv t f).
Proof.
  intros T A. unfold br_upstream_recv. destruct (tlp_check t) as [ok|e]; [|reflexivity]. cbn [bind]. destruct ok; [|reflexivity]. cbn [py_assert bind].
  pose proof (alike_attr f f' fn_master_data_parity_error fn_master_data_parity_error 1 1 (zbool (f_attr f fn_parity_error_response_enable) && ep t) (zbool (f_attr f' fn_parity_error_response_enable) && ep t) A
    ltac:(discriminate) ltac:(discriminate) ltac:(discriminate) ltac:(discriminate)) as [E1 E2].
  match type of E1 with f_id ?x = f_id ?y => set (h' := x) in *; set (h := y) in * end. clearbody h h'.
  rewrite (same_match 2 2 h h' t T E1). destruct (match_tlp 2 h t) as [m|e]; [|reflexivity]. cbn [bind]. destruct m; [apply note_acts|].
  rewrite (same_secondary h h' t T E2). destruct (match_secondary h t) as [s|e]; [|reflexivity]. cbn [bind]. destruct (fmt_type t) as [ty|e]; [|reflexivity]. cbn [bind].
  destruct s; [|apply unrouted_acts; exact E1]. injection E2 as E2 _. rewrite E2. apply send_acts.
Qed.
Lemma down_acts root t f f' : id_type t -> alike f f' -> acts_of (br_downstream_recv root t f') = acts_of (br_downstream_recv root t f).
Proof.
  intros T A. unfold br_downstream_recv. destruct (tlp_check t) as [ok|e]; [|reflexivity]. cbn [bind]. destruct ok; [|reflexivity]. cbn [py_assert bind].
  pose proof (alike_attr f f' fn_sec_master_data_parity_error fn_sec_master_data_parity_error 1 1 (zbool (f_attr f fn_bridge_parity_error_response_enable) && ep t)
    (zbool (f_attr f' fn_bridge_parity_error_response_enable) && ep t) A ltac:(discriminate) ltac:(discriminate) ltac:(discriminate) ltac:(discriminate)) as [E1 E2].
  match type of E1 with f_id ?x = f_id ?y => set (h' := x) in *; set (h := y) in * end. clearbody h h'.
  destruct (fmt_type t) as [ty|e]; [|reflexivity]. cbn [bind]. destruct (type_in ty cfg_types); [apply unrouted_acts; exact E1|].
  rewrite (same_match 2 2 h h' t T E1). destruct (if root then Ok false else match_tlp 2 h t) as [m|e]; [|reflexivity]. cbn [bind]. destruct m; [apply note_acts|].
  rewrite (same_secondary h h' t T E2). destruct (match_secondary h t) as [s|e]; [|reflexivity]. cbn [bind]. destruct (negb s || root); [apply send_acts|apply unrouted_acts; exact E1].
Qed.

(** ** Down *)
Definition like (r r' : res (option (fnc * tlp))) : Prop :=
  match r, r' with
  | Ok None, Ok None => True
  | Ok (Some (g, t)), Ok (Some (g', t')) => t' = t /\ f_id g' = f_id g
  | Err e, Err e' => e' = e
  | _, _ => False
  end.
Lemma same_claims t z z' : id_type t -> same_numbers z z' -> net_claims t z' = net_claims t z.
Proof.
  intros T S. destruct z as [f br l], z' as [f' br' l']. apply same_eq in S. destruct S as (E & -> & B & _). unfold net_claims. rewrite (same_match (net_bars br) (net_bars br) f f' t T E).
  destruct (match_tlp (net_bars br) f t) as [[|]|e]; cbn [bind]; try reflexivity. destruct br; [|reflexivity]. apply same_secondary; auto.
Qed.
Lemma like_first t (take : net -> res (option (fnc * tlp))) l l' : id_type t -> Forall2 same_numbers l l' -> Forall2 (fun z z' => like (take z) (take z')) l l' ->
  like (first_claim (net_claims t) take l) (first_claim (net_claims t) take l').
Proof.
  intros T S. induction S as [|z z' l l' S1 _ IH]; intros L; inversion L; subst; cbn [first_claim]; [exact Logic.I|]. rewrite (same_claims t z z' T S1).
  destruct (net_claims t z) as [[|]|e]; cbn [bind]; [assumption|apply IH; assumption|reflexivity].
Qed.
Lemma down_type t f a t' : id_type t -> br_upstream_recv t f = Ok (a, [Fwd Down t']) -> id_type t'.
Proof.
  intros T. unfold br_upstream_recv. destruct (tlp_check t) as [[|]|e]; try discriminate. cbn [bind py_assert]. set (h := if _ && _ then _ else f). clearbody h.
  destruct (match_tlp 2 h t) as [[|]|e]; try discriminate; cbn [bind].
  - unfold note_status. destruct (is_completion t); discriminate.
  - destruct (match_secondary h t) as [s|e]; try discriminate. cbn [bind]. pose proof T as (ty & Ty & I). rewrite Ty. cbn [bind]. destruct s.
    + intros E. unfold send_to in E. destruct (br_sends _ _ _) as [x|e]; [|discriminate E]. cbn [bind] in E. injection E as _ <-. destruct (_ =? _); [|exact T].
      cbn [In id_types] in I. repeat (destruct I as [<-|I]; [first [exact T|eexists; split; [reflexivity|cbn; auto]]|]). destruct I.
    + unfold br_unrouted. destruct (unrouted _ _ _) as [[c|]|e]; cbn [bind]; try discriminate. destruct (br_sends _ _ _); discriminate.
Qed.
Lemma like_reach z : forall z' t, id_type t -> same_numbers z z' -> like (reach z t) (reach z' t).
Proof.
  induction z as [f br l IH] using net_rect'. intros [f' br' l'] t T S. apply same_eq in S. destruct S as (E & -> & B & Sl). destruct br; cbn [reach].
  - pose proof (up_acts t f f' T (conj E (B eq_refl))) as U. unfold acts_of in U. destruct (br_upstream_recv t f) as [[a acts]|e] eqn:R, (br_upstream_recv t f') as [[a' acts']|e'] eqn:R'; cbn [bind] in *; try discriminate U;
      [|injection U as ->; reflexivity]. injection U as ->. destruct acts as [|x acts]; [exact Logic.I|]. destruct x as [d u|d u|u|u]; [destruct d; [exact Logic.I|]|exact Logic.I| |exact Logic.I]; (destruct acts; [|exact Logic.I]).
    + apply like_first; [exact (down_type t f a u T R)|exact Sl|]. pose proof (down_type t f a u T R) as Tu. clear - IH Sl Tu. revert l' Sl. induction IH as [|z l H _ IHl]; intros l' Sl; inversion Sl; subst; constructor; auto.
    + cbn [like]. auto.
  - rewrite (same_match 6 6 f f' t T E). destruct (match_tlp 6 f t) as [[|]|e]; cbn [bind like]; auto.
Qed.
Lemma first_in t (take : net -> res (option (fnc * tlp))) l v : first_claim (net_claims t) take l = Ok (Some v) -> exists z, In z l /\ take z = Ok (Some v).
Proof.
  induction l as [|z l IH]; cbn [first_claim]; [discriminate|]. destruct (net_claims t z) as [[|]|e]; cbn [bind]; [eauto| |discriminate]. 
  - intros E. exists z. split; [left; reflexivity|exact E].
  - intros E. destruct (IH E) as (z' & I & Q). exists z'. split; [right; exact I|exact Q].
Qed.
Lemma reach_in z : forall t g t', reach z t = Ok (Some (g, t')) -> In g (map fst (net_fns z)).
Proof.
  induction z as [f br l IH] using net_rect'. intros t g t'. cbn [reach net_fns map fst]. destruct br.
  - destruct (br_upstream_recv t f) as [[a acts]|e]; [|discriminate]. cbn [bind]. destruct acts as [|x acts]; [discriminate|]. destruct x as [d u|d u|u|u]; [destruct d; [discriminate|]|discriminate| |discriminate]; (destruct acts; [|discriminate]).
    + intros E. destruct (first_in _ _ _ _ E) as (c & I & Q). right. rewrite Forall_forall in IH. pose proof (IH c I u g t' Q) as J. apply in_map_iff in J. destruct J as (x & Ex & J). apply in_map_iff. exists x. split; [exact Ex|].
      apply in_flat_map. eauto.
    + intros E. injection E as <- _. left. reflexivity.
  - destruct (match_tlp 6 f t) as [[|]|e]; cbn [bind]; try discriminate. intros E. injection E as <- _. left. reflexivity.
Qed.

(** ** Up *)
Definition same_end (r r' : res passage) : Prop :=
  match r, r' with
  | Ok (Passes t), Ok (Passes t') => t' = t
  | Ok (Stops g t), Ok (Stops g' t') => t' = t /\ f_id g' = f_id g
  | Ok Drops, Ok Drops => True
  | Err e, Err e' => e' = e
  | _, _ => False
  end.
Lemma same_through root t f f' : id_type t -> alike f f' -> same_end (through root t f) (through root t f').
Proof.
  intros T A. unfold through. pose proof (down_acts root t f f' T A) as U. unfold acts_of in U. destruct (br_downstream_recv root t f) as [[a acts]|e], (br_downstream_recv root t f') as [[a' acts']|e']; cbn [bind] in *; try discriminate U;
    [|injection U as ->; reflexivity]. injection U as ->. destruct acts as [|x acts]; [exact Logic.I|]. destruct x as [d u|d u|u|u]; [destruct d; [|exact Logic.I]|exact Logic.I| |exact Logic.I]; (destruct acts; [|exact Logic.I]); cbn [same_end]; auto.
  split; [reflexivity|apply A].
Qed.
Lemma through_same root t f u : through root t f = Ok (Passes u) -> u = t.
Proof.
  unfold through, br_downstream_recv. destruct (tlp_check t) as [[|]|e]; try discriminate. cbn [bind py_assert]. set (h := if _ && _ then _ else f). clearbody h. destruct (fmt_type t) as [ty|e]; [|discriminate]. cbn [bind].
  assert (UR : forall h, ('(_, acts) <- br_unrouted Down ty t h ;; Ok (match acts with [Own t] => Stops f t | [Fwd Up t] => Passes t | _ => Drops end)) = Ok (Passes u) -> u = t).
  { intros h0. unfold br_unrouted. destruct (unrouted _ _ _) as [[c|]|e]; cbn [bind]; try discriminate. destruct (br_sends _ _ _); discriminate. }
  destruct (type_in ty cfg_types); [apply UR|]. destruct (if root then Ok false else match_tlp 2 h t) as [[|]|e]; cbn [bind]; try discriminate.
  - unfold note_status. destruct (is_completion t); discriminate.
  - destruct (match_secondary h t) as [s|e]; [|discriminate]. cbn [bind]. destruct (negb s || root); [|apply UR]. unfold send_to. destruct (br_sends _ _ _); [|discriminate]. cbn [bind]. intros E. injection E as <-. reflexivity.
Qed.
Lemma same_but {A} (R : A -> A -> Prop) k l l' : Forall2 R l l' -> Forall2 R (all_but k l) (all_but k l').
Proof.
  intros F. unfold all_but. apply Forall2_app.
  - revert k. induction F; intros [|k]; cbn; constructor; auto.
  - revert k. induction F; intros [|k]; cbn [skipn]; [constructor|constructor|assumption|apply IHF].
Qed.
Lemma same_switched root f f' k l l' t : id_type t -> alike f f' -> Forall2 same_numbers l l' -> same_end (switched root f k l t) (switched root f' k l' t).
Proof.
  intros T A S. unfold switched. rewrite (same_match 2 2 f f' t T (proj1 A)), (same_secondary f f' t T (proj2 A)). destruct (match_tlp 2 f t) as [m|e]; [|reflexivity]. cbn [bind].
  destruct (if m then Ok false else match_secondary f t) as [s|e]; [|reflexivity]. cbn [bind]. destruct (negb s); [apply same_through; assumption|].
  pose proof (like_first t (fun z => reach z t) (all_but k l) (all_but k l') T (same_but _ k _ _ S)) as L.
  assert (F : Forall2 (fun z z' => like (reach z t) (reach z' t)) (all_but k l) (all_but k l')).
  { pose proof (same_but _ k _ _ S) as F. clear - F T. induction F as [|? ? ? ? Q]; constructor; [apply like_reach; assumption|assumption]. }
  specialize (L F). clear F. destruct (first_claim _ _ (all_but k l)) as [[[g u]|]|e], (first_claim _ _ (all_but k l')) as [[[g' u']|]|e']; cbn [like bind same_end] in *; auto; contradiction.
Qed.
Lemma switched_same root f k l t u : switched root f k l t = Ok (Passes u) -> u = t.
Proof.
  unfold switched. destruct (match_tlp 2 f t) as [m|e]; [|discriminate]. cbn [bind]. destruct (if m then Ok false else match_secondary f t) as [s|e]; [|discriminate]. cbn [bind]. destruct (negb s); [apply through_same|].
  destruct (first_claim _ _ _) as [[[g u']|]|e]; discriminate.
Qed.
Lemma rise_same : forall p sw root z t u, rise sw root z p t = Ok (Passes u) -> u = t.
Proof.
  induction p as [|k p IH]; intros sw root [f br l] t u; cbn [rise]; [intros E; injection E as <-; reflexivity|]. destruct (nth_error l k) as [c|]; [|discriminate].
  destruct (rise (negb sw) false c p t) as [[t1|g t1|]|e] eqn:E; cbn [bind]; try discriminate. apply IH in E. subst t1. destruct sw; [apply switched_same|apply through_same].
Qed.
Lemma same_nth {A} (R : A -> A -> Prop) l l' : Forall2 R l l' -> forall k, match nth_error l k, nth_error l' k with Some a, Some b => R a b | None, None => True | _, _ => False end.
Proof. induction 1; intros [|k]; cbn [nth_error]; auto. apply IHForall2. Qed.
(** Only bridges have something below. *)
Fixpoint leafy (z : net) : Prop :=
  match z with Net _ br l => (br = false -> l = []) /\ (fix go (l : list net) : Prop := match l with [] => True | z :: l => leafy z /\ go l end) l end.
Lemma leafy_eq f br l : leafy (Net f br l) <-> (br = false -> l = []) /\ Forall leafy l.
Proof.
  cbn [leafy]. assert (G : (fix go (l : list net) : Prop := match l with [] => True | z :: l => leafy z /\ go l end) l <-> Forall leafy l); [|rewrite G; tauto].
  induction l as [|z l IH]; split; intros H; auto; [constructor; [apply H|apply IH; apply H]|]. inversion H; subst. split; [assumption|apply IH; assumption].
Qed.
Lemma same_rise : forall p sw root z z' t, leafy z -> id_type t -> same_numbers z z' -> same_end (rise sw root z p t) (rise sw root z' p t).
Proof.
  induction p as [|k p IH]; intros sw root [f br l] [f' br' l'] t Le T S; cbn [rise]; [reflexivity|]. apply same_eq in S. destruct S as (E & -> & B & Sl). apply leafy_eq in Le. destruct Le as [Le1 Le2].
  pose proof (same_nth _ _ _ Sl k) as N. destruct (nth_error l k) as [c|] eqn:Ek, (nth_error l' k) as [c'|] eqn:Ek'; try contradiction; [|reflexivity].
  destruct br; [|rewrite Le1 in Ek by reflexivity; destruct k; discriminate Ek]. rewrite Forall_forall in Le2. pose proof (IH (negb sw) false c c' t (Le2 c (nth_error_In _ _ Ek)) T N) as Q.
  destruct (rise (negb sw) false c p t) as [[t1|g t1|]|e] eqn:R, (rise (negb sw) false c' p t) as [[t1'|g' t1'|]|e'] eqn:R'; cbn [same_end bind] in *; try contradiction; auto. subst t1'.
  apply rise_same in R. subst t1. destruct sw; [apply same_switched|apply same_through]; auto; split; auto.
Qed.
Lemma same_locate i z : forall z', same_numbers z z' -> locate z' i = locate z i.
Proof.
  induction z as [f br l IH] using net_rect'. intros [f' br' l'] S. apply same_eq in S. destruct S as (E & -> & B & Sl). cbn [locate]. rewrite E. destruct (id_eqb (f_id f) i); [reflexivity|].
  set (go := fix go (k : nat) (l : list net) : option (list nat) := match l with [] => None | c :: r => match locate c i with Some q => Some (k :: q) | None => go (S k) r end end).
  clear - IH Sl. revert l' Sl. generalize 0%nat. induction IH as [|c l H _ IHl]; intros k l' Sl; inversion Sl as [|? c' ? r' S1 S2]; subst; [reflexivity|]. cbn [go]. fold go. rewrite (H c' S1). destruct (locate c i); [reflexivity|]. apply IHl. exact S2.
Qed.
Lemma same_at : forall q z z' w', same_numbers z z' -> net_at z' q = Some w' -> exists w, net_at z q = Some w /\ same_numbers w w'.
Proof.
  induction q as [|k q IH]; intros [f br l] [f' br' l'] w' S Q; cbn [net_at] in *; [injection Q as <-; eauto|]. apply same_eq in S. destruct S as (_ & _ & _ & Sl). pose proof (same_nth _ _ _ Sl k) as N.
  destruct (nth_error l k) as [c|], (nth_error l' k) as [c'|]; try contradiction; [|discriminate Q]. exact (IH c c' w' N Q).
Qed.
Lemma same_ids z : forall z', same_numbers z z' -> map (fun e => f_id (fst e)) (net_fns z') = map (fun e => f_id (fst e)) (net_fns z).
Proof.
  induction z as [f br l IH] using net_rect'. intros [f' br' l'] S. apply same_eq in S. destruct S as (E & -> & B & Sl). cbn [net_fns map fst]. f_equal; [exact E|]. rewrite !map_flat.
  clear - IH Sl. revert l' Sl. induction IH as [|c l H _ IHl]; intros l' Sl; inversion Sl as [|? c' ? r' S1 S2]; subst; [reflexivity|]. cbn [flat_map]. rewrite (H c' S1), (IHl r' S2). reflexivity.
Qed.
Lemma same_at' : forall q z z' w, same_numbers z z' -> net_at z q = Some w -> exists w', net_at z' q = Some w' /\ same_numbers w w'.
Proof.
  induction q as [|k q IH]; intros [f br l] [f' br' l'] w S Q; cbn [net_at] in *; [injection Q as <-; eauto|]. apply same_eq in S. destruct S as (_ & _ & _ & Sl). pose proof (same_nth _ _ _ Sl k) as N.
  destruct (nth_error l k) as [c|], (nth_error l' k) as [c'|]; try contradiction; [|discriminate Q]. exact (IH c c' w N Q).
Qed.
