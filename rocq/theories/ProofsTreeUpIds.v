(** Completions: where a tree with the bus numbers of the enumeration leads. *)
From Verif Require Import Base BaseProofs ModelUtils ModelTlp ModelAttrs ModelCapList ModelConfig ModelFunction ModelRoute ModelEnum ModelAssign SpecBar SpecRoute
  SpecEnum SpecAssign ModelTree SpecTree ModelTreeUp SpecTreeUp ProofsBar ProofsUtils ProofsRoute ProofsEnum ProofsEnumFacts ProofsTree ProofsTreeIds ProofsTreeUp ProofsTreeUpAddr.

Lemma numbered_proper n y z : numbered n y z -> proper z.
Proof.
  revert n z. induction y as [x l IH] using hw_rect'. intros n [f br l'] N. apply numbered_eq in N. destruct N as (_ & _ & _ & N). destruct br.
  - destruct N as [_ N]. constructor; [discriminate|]. revert IH. induction N as [|y z l l' Ny _ IHN]; intros IH; constructor; inversion IH; subst; eauto.
  - destruct N as [-> ->]. constructor; auto.
Qed.
Lemma all_proper n l zs : Forall2 (numbered n) l zs -> Forall proper zs.
Proof. induction 1; constructor; eauto using numbered_proper. Qed.

Section Back.
Variables (dst : pcie_id).
Notation r := (TBack dst).
Lemma own_back f lay : SpecRoute.own f lay r = id_eqb (f_id f) dst.
Proof. reflexivity. Qed.
Lemma bars_back f nb lay : laid_out (f_attr f) 0 lay -> total_slots lay = nb -> bars f nb lay r.
Proof. intros A B. split; [exact A|]. split; [exact B|exact Logic.I]. Qed.
Lemma eqb_no i : i <> dst -> id_eqb i dst = false.
Proof. intros H. apply not_true_iff_false. rewrite id_eqb_ok. exact H. Qed.

(** Nobody has the number. *)
Lemma unnumbered n y z : numbered n y z -> ~ In dst (map number (functions n y)) -> blind r z.
Proof.
  revert n z. induction y as [x l IH] using hw_rect'. intros n [f br l'] N D. apply numbered_eq in N. destruct N as (N1 & _ & (lay & L & S) & N). cbn [functions map In] in D.
  apply (Blind _ f br l' lay (bars_back f _ lay L S)).
  - rewrite own_back. apply eqb_no. rewrite N1. intros E. apply D. left. exact E.
  - intros ->. apply N.
  - destruct br; [|destruct N as [_ ->]; intros [|i] c E; discriminate E]. destruct N as [_ N]. assert (D' : ~ In dst (map number (flat_map (functions (h_sec x)) l))) by tauto. clear D N1. revert IH D'.
    induction N as [|y z l l' Ny _ IHN]; intros IH D [|i] c E; try discriminate E; inversion IH as [|? ? IH1 IH2]; subst; cbn [flat_map] in D; rewrite map_app, in_app_iff in D.
    + injection E as <-. apply (IH1 _ _ Ny). tauto.
    + apply (IHN IH2 ltac:(tauto) i c E).
Qed.
Lemma all_unnumbered n l zs : Forall2 (numbered n) l zs -> ~ In dst (map number (flat_map (functions n) l)) -> forall i c, nth_error zs i = Some c -> blind r c.
Proof.
  intros N. induction N as [|y z l zs Ny _ IHN]; intros D [|i] c E; try discriminate E; cbn [flat_map] in D; rewrite map_app, in_app_iff in D.
  - injection E as <-. apply (unnumbered n y z Ny). tauto.
  - apply (IHN ltac:(tauto) i c E).
Qed.
(** The host has it, which no bridge claims. *)
Lemma blind_host z : dst = mkId 0 0 0 -> blind r z -> leads r None z.
Proof.
  intros D. induction 1 as [f br l lay B E1 E2 E3 IH]. apply (Leads _ None f br l lay B E1); auto; [|discriminate].
  intros _. cbn [behind deeper]. unfold bus_behind. rewrite D. unfold id_eqb. cbn [bus device func]. rewrite !Z.eqb_refl. apply andb_false_r.
Qed.

(** A function has it. *)
Hypothesis D0 : dst <> mkId 0 0 0.
Definition one (zs : list net) : Prop :=
  exists j q z y, nth_error zs j = Some z /\ leads r (Some q) z /\ net_at z q = Some y /\ f_id (net_fn y) = dst /\ forall i c, i <> j -> nth_error zs i = Some c -> leads r None c.
Definition misses (n : Z) (y : hw) : Prop := number (n, hw_fn y) <> dst /\ (is_bridge (hw_fn y) = true -> ~ h_sec (hw_fn y) <= bus dst <= h_sub (hw_fn y)).
Definition node_ok (y : hw) : Prop := forall n z, numbered n y z -> hw_all ranged y -> (is_bridge (hw_fn y) = true -> n < h_sec (hw_fn y) <= h_sub (hw_fn y)) ->
  (misses n y -> leads r None z) /\
  (NoDup (map number (functions n y)) -> In dst (map number (functions n y)) -> exists q y', leads r (Some q) z /\ net_at z q = Some y' /\ f_id (net_fn y') = dst).
Lemma below_bus n y u : hw_all ranged y -> (is_bridge (hw_fn y) = true -> n < h_sec (hw_fn y) <= h_sub (hw_fn y)) -> In u (map number (below_functions y)) ->
  is_bridge (hw_fn y) = true /\ h_sec (hw_fn y) <= bus u <= h_sub (hw_fn y).
Proof.
  intros Rz O Hu. apply in_map_iff in Hu. destruct Hu as ((b & x) & <- & Hx). cbn [number fst bus]. destruct (is_bridge (hw_fn y)) eqn:Bz.
  - specialize (O eq_refl). split; [reflexivity|]. pose proof (functions_bus y Rz ltac:(lia) Bz b x Hx) as I. rewrite ranged_buses in I; [apply in_interval in I; exact I|destruct y; apply hw_all_eq in Rz; tauto|exact Bz|lia].
  - destruct y as [xz lz]. apply hw_all_eq in Rz. destruct Rz as (Rz & _). unfold ranged in Rz. cbn in Rz, Bz. rewrite Bz in Rz. subst lz. destruct Hx.
Qed.
Lemma functions_split n y : map number (functions n y) = number (n, hw_fn y) :: map number (below_functions y).
Proof. destruct y. reflexivity. Qed.
Lemma list_ok n l : Forall node_ok l -> Forall (hw_all ranged) l -> ordered n l -> forall zs, Forall2 (numbered n) l zs ->
  (Forall (misses n) l -> forall i c, nth_error zs i = Some c -> leads r None c) /\
  (NoDup (map number (flat_map (functions n) l)) -> In dst (map number (flat_map (functions n) l)) -> one zs).
Proof.
  intros K Rg [O1 O2] zs Z. revert K Rg O1 O2. induction Z as [|y z l zs Ny Nl IH]; intros K Rg O1 O2.
  - split; [intros _ [|i] c E; discriminate E|intros _ []].
  - inversion K as [|? ? K1 K2]; inversion Rg as [|? ? R1 R2]; inversion O1 as [|? ? O11 O12]; inversion O2 as [|? ? O21 O22]; subst.
    assert (Oy : is_bridge (hw_fn y) = true -> n < h_sec (hw_fn y) <= h_sub (hw_fn y)) by (intros Q; apply O21; exact Q).
    destruct (K1 n z Ny R1 Oy) as [KA KB]. destruct (IH K2 R2 O12 O22) as [IA IB]. clear IH. split.
    + intros M [|i] c E; inversion M; subst; [injection E as <-; auto|]. exact (IA ltac:(assumption) i c E).
    + intros ND I. cbn [flat_map] in ND, I. rewrite map_app in ND, I. apply in_app_or in I. rewrite Forall_forall in O11, O22, R2.
      assert (Dj : forall u, In u (map number (functions n y)) -> ~ In u (map number (flat_map (functions n) l))).
      { intros u I1 I2. revert I1 I2 ND. generalize (map number (functions n y)) (map number (flat_map (functions n) l)). intros a b' I1 I2. clear - I1 I2. induction a as [|v a IH]; [destruct I1|]. intros ND. inversion ND as [|? ? N1 N2]; subst.
        destruct I1 as [->|I1]; [apply N1; apply in_or_app; auto|exact (IH I1 N2)]. }
      assert (NDl : NoDup (map number (functions n y)) /\ NoDup (map number (flat_map (functions n) l))).
      { revert ND. generalize (map number (functions n y)) (map number (flat_map (functions n) l)). intros a b'. induction a as [|v a IH]; intros ND; [split; [constructor|exact ND]|]. inversion ND as [|? ? N1 N2]; subst. destruct (IH N2). split; [|assumption].
        constructor; [|assumption]. intros Q. apply N1. apply in_or_app. auto. }
      destruct NDl as [ND1 ND2]. destruct I as [I|I].
      * destruct (KB ND1 I) as (q & y' & L & A & Ei). exists 0%nat, q, z, y'. split; [reflexivity|]. split; [exact L|]. split; [exact A|]. split; [exact Ei|]. intros [|i] c Ni E; [congruence|]. refine (IA _ i c E).
        apply Forall_forall. intros w Iw. split.
        -- intros Q. apply (Dj dst I). apply in_map_iff. exists (n, hw_fn w). split; [exact Q|]. apply in_flat_map. exists w. split; [exact Iw|]. destruct w. left. reflexivity.
        -- intros Bw Hw'. pose proof (O22 w Iw Bw) as Ow. rewrite functions_split in I. destruct I as [I|I]; [rewrite <- I in Hw'; cbn in Hw'; lia|]. destruct (below_bus n y dst R1 Oy I) as [By Hy]. specialize (O11 w Iw By Bw). lia.
      * destruct (IB ND2 I) as (j & q & w & y' & E1 & L & A & Ei & Rest). exists (S j), q, w, y'. split; [exact E1|]. split; [exact L|]. split; [exact A|]. split; [exact Ei|]. intros [|i] c Ni E; [|apply (Rest i c); [congruence|exact E]].
        injection E as <-. apply KA. split.
        -- intros Q. apply (Dj dst); [|exact I]. rewrite functions_split. left. exact Q.
        -- intros By Hy. rewrite in_map_iff in I. destruct I as (e & Ee & I). apply in_flat_map in I. destruct I as (v & Iv & I). apply (in_map number) in I. rewrite Ee, functions_split in I. destruct I as [I|I].
           ++ specialize (Oy By). rewrite <- I in Hy. cbn in Hy. lia.
           ++ destruct (below_bus n v dst (R2 v Iv) (fun Q => proj2 (O22 v Iv Q)) I) as [Bv Hv]. specialize (O11 v Iv By Bv). lia.
Qed.
Lemma nodes_ok y : node_ok y.
Proof.
  induction y as [x l IH] using hw_rect'. intros n [f br l'] N Rg O. apply numbered_eq in N. destruct N as (N1 & Eb & (lay & L & S) & N). pose proof (bars_back f _ lay L S) as B. cbn [hw_fn] in *.
  apply hw_all_eq in Rg. destruct Rg as [Rx Rl]. unfold ranged in Rx. cbn [hw_fn hw_below] in Rx. rewrite <- Eb in Rx. destruct br.
  - destruct N as [N2 N3]. destruct Rx as [Rx1 Rx2]. specialize (O (eq_sym Eb)). destruct (list_ok (h_sec x) l IH Rl Rx2 l' N3) as [LA LB]. clear IH.
    assert (Bh : behind f r = (h_sec x <=? bus dst) && (bus dst <=? h_sub x)) by (cbn [behind]; apply (behind_bus dst D0 f _ _ N2)).
    assert (Miss : ~ In dst (map number (flat_map (functions (h_sec x)) l)) -> ~ h_sec x <= bus dst <= h_sub x -> Forall (misses (h_sec x)) l).
    { intros D Q. apply Forall_forall. intros w Iw. split.
      - intros E. apply D. apply in_map_iff. exists (h_sec x, hw_fn w). split; [exact E|]. apply in_flat_map. exists w. split; [exact Iw|]. destruct w. left. reflexivity.
      - intros Bw Hw'. apply Q. destruct Rx2 as [_ Rx2]. rewrite Forall_forall in Rx2, Rl. pose proof (Rx2 w Iw Bw) as Ow. assert (In (bus dst) (flat_map buses l)) as Ib.
        { apply in_flat_map. exists w. split; [exact Iw|]. pose proof (Rl w Iw) as Rw. rewrite ranged_buses; [apply in_interval; lia|destruct w; apply hw_all_eq in Rw; tauto|exact Bw|lia]. }
        rewrite Rx1 in Ib. apply in_interval in Ib. lia. }
    split.
    + intros [M1 M2]. cbn [hw_fn] in *. specialize (M2 (eq_sym Eb)). apply (Leads _ None f true l' lay B).
      * rewrite own_back. apply eqb_no. rewrite N1. exact M1.
      * intros _. rewrite Bh. cbn [deeper]. lia.
      * discriminate.
      * discriminate.
      * intros i c E. cbn [under]. refine (LA (Miss _ M2) i c E). intros I. apply M2. apply (below_bus n (Hw x l) dst); [apply hw_all_eq; split; [unfold ranged; cbn [hw_fn hw_below]; rewrite <- Eb; auto|exact Rl]|intros _; exact O|exact I].
    + intros ND I. cbn [functions map] in ND, I. inversion ND as [|? ? ND1 ND2]; subst. destruct I as [I|I].
      * exists [], (Net f true l'). split; [|split; [reflexivity|cbn [net_fn]; rewrite N1; exact I]]. unfold number in I. cbn [fst snd] in I. apply (Leads _ (Some []) f true l' lay B).
        -- rewrite own_back. cbn [here]. apply id_eqb_ok. rewrite N1. exact I.
        -- intros _. rewrite Bh. cbn [deeper]. rewrite <- I. cbn [bus]. lia.
        -- discriminate.
        -- discriminate.
        -- intros i c E. cbn [under]. refine (LA (Miss _ _) i c E); [rewrite <- I; exact ND1|rewrite <- I; cbn [bus]; lia].
      * destruct (LB ND2 I) as (j & q & w & y' & E1 & L1 & A & Ei & Rest). exists (j :: q), y'. split; [|split; [cbn [net_at]; rewrite E1; exact A|exact Ei]].
        destruct (below_bus n (Hw x l) dst) as [_ Hb]; [apply hw_all_eq; split; [unfold ranged; cbn [hw_fn hw_below]; rewrite <- Eb; auto|exact Rl]|intros _; exact O|exact I|]. cbn [hw_fn] in Hb.
        apply (Leads _ (Some (j :: q)) f true l' lay B).
        -- rewrite own_back. cbn [here]. apply eqb_no. rewrite N1. intros Q. rewrite <- Q in Hb. cbn [bus] in Hb. lia.
        -- intros _. rewrite Bh. cbn [deeper]. lia.
        -- discriminate.
        -- intros j' q' E. injection E as <- <-. eauto.
        -- intros i c E. cbn [under]. destruct (Nat.eqb_spec i j) as [->|Ni]; [rewrite E1 in E; injection E as <-; exact L1|exact (Rest i c Ni E)].
  - destruct N as [-> ->]. split.
    + intros [M1 _]. apply (Leads _ None f false [] lay B); auto; try discriminate; [|intros [|i] c E; discriminate E]. rewrite own_back. apply eqb_no. rewrite N1. exact M1.
    + intros _ I. cbn [functions map flat_map] in I. destruct I as [I|[]]. exists [], (Net f false []). split; [|split; [reflexivity|cbn [net_fn]; rewrite N1; exact I]].
      apply (Leads _ (Some []) f false [] lay B); auto; try discriminate; [|intros [|i] c E; discriminate E]. rewrite own_back. cbn [here]. apply id_eqb_ok. rewrite N1. exact I.
Qed.
Lemma all_numbered n l zs : Forall (hw_all ranged) l -> ordered n l -> Forall2 (numbered n) l zs -> NoDup (map number (flat_map (functions n) l)) -> In dst (map number (flat_map (functions n) l)) -> one zs.
Proof. intros Rg O Z. apply list_ok; auto. apply Forall_forall. intros y _. apply nodes_ok. Qed.
End Back.
