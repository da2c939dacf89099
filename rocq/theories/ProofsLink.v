(** Link settings: the constructors. *)
From Coq Require Import QArith Qround.
From Verif Require Import Base BaseProofs ModelVendorFn ModelLink SpecLink ProofsLinkTable.
Open Scope Z_scope.

Lemma qeqb x y : Qeq_bool x y = true <-> Qeq x y.
Proof. split; [apply Qeq_bool_eq|apply Qeq_eq_bool]. Qed.
Lemma rescale_hz q f : Qeq (rescale q) (inject_Z f) <-> hz q f.
Proof.
  unfold rescale, hz. destruct (Qle_bool (inject_Z 1000000) q) eqn:E.
  - apply Qle_bool_iff in E. split; [intros H; left; split; assumption|]. intros [[_ H]|[L _]]; [exact H|]. exfalso. exact (Qlt_not_le _ _ L E).
  - assert (L : Qlt q (inject_Z 1000000)).
    { apply Qnot_le_lt. intros H. apply Qle_bool_iff in H. congruence. }
    split; [intros H; right; split; assumption|]. intros [[H _]|[_ H]]; [|exact H]. exfalso. exact (Qlt_not_le _ _ L H).
Qed.
Lemma inject_eqb x y : Qeq_bool (inject_Z x) (inject_Z y) = true <-> x = y.
Proof. rewrite qeqb. unfold Qeq, inject_Z. cbn. lia. Qed.

Definition scaled (a : link_args) : link_args := mkArgs (a_gen a) (a_width a) (option_map rescale (a_freq a)).
Definition fits (a : link_args) (g w f : Z) : bool := agrees (a_gen a) g && agrees (a_width a) w && agrees_q (a_freq a) f.
Lemma fits_asked a g w f : fits (scaled a) g w f = true <-> asked a g w f.
Proof.
  destruct a as [ag aw af]. unfold fits, scaled, asked, agrees, agrees_q. cbn [a_gen a_width a_freq].
  rewrite !andb_true_iff. split.
  - intros ((H1 & H2) & H3). split; [|split].
    + intros x ->. lia.
    + intros x ->. lia.
    + intros q ->. cbn [option_map] in H3. apply rescale_hz, qeqb, H3.
  - intros (H1 & H2 & H3). split; [split|].
    + destruct ag as [x|]; [|reflexivity]. apply Z.eqb_eq, H1. reflexivity.
    + destruct aw as [x|]; [|reflexivity]. apply Z.eqb_eq, H2. reflexivity.
    + destruct af as [q|]; [|reflexivity]. cbn [option_map]. apply qeqb, rescale_hz, H3. reflexivity.
Qed.

(** ** Selection *)
Fixpoint sortedb {A} (le : A -> A -> bool) (l : list A) : bool :=
  match l with [] => true | x :: r => forallb (le x) r && sortedb le r end.
Lemma find_rev {A} (p : A -> bool) (le : A -> A -> bool) l c : sortedb le l = true -> find p (rev l) = Some c ->
  In c l /\ p c = true /\ forall x, In x l -> p x = true -> x = c \/ le x c = true.
Proof.
  intros S0 F. split; [|split].
  - apply find_some in F. apply in_rev, F.
  - apply find_some in F. apply F.
  - revert S0 F. induction l as [|y l IH]; intros S0 F x X P; [destruct X|].
    cbn [sortedb] in S0. apply andb_prop in S0. destruct S0 as [S1 S2]. cbn [rev] in F.
    assert (FA : forall (l1 : list A) z, find p (l1 ++ [z]) = match find p l1 with Some r => Some r | None => if p z then Some z else None end).
    { clear. induction l1 as [|w l1 IH]; intros z; cbn [app find]; [reflexivity|]. rewrite IH. destruct (p w); reflexivity. }
    rewrite FA in F. destruct (find p (rev l)) as [r|] eqn:E.
    + injection F as ->. destruct X as [->|X]; [|apply (IH S2 eq_refl x X P)]. right. rewrite forallb_forall in S1. apply S1.
      apply find_some in E. apply in_rev, E.
    + destruct X as [->|X].
      * rewrite P in F. left. congruence.
      * exfalso. pose proof (find_none _ _ E x) as N. rewrite N in P; [discriminate|]. rewrite <- in_rev. exact X.
Qed.
Lemma find_exists {A} (p : A -> bool) l x : In x l -> p x = true -> exists c, find p (rev l) = Some c.
Proof.
  intros X P. destruct (find p (rev l)) as [c|] eqn:E; [eauto|]. pose proof (find_none _ _ E x) as N. rewrite N in P; [discriminate|]. rewrite <- in_rev. exact X.
Qed.
Definition row_le (x y : Z * Z * Z * Z) : bool :=
  let '(g, w, d, f) := x in let '(g', w', d', f') := y in
  negb (d =? d') || (g <? g') || (g =? g') && ((w <? w') || (w =? w') && (f <=? f')).
Lemma tables_sorted v : sortedb row_le (valid_configs v) = true.
Proof. destruct v; vm_compute; reflexivity. Qed.

Lemma in_sets v g w d f : In (g, w, d, f) (valid_configs v) ->
  mem_z g (gen_set v) = true /\ mem_z w (width_set v) = true /\ mem_z d (dw_set v) = true /\ mem_z f (freq_set v) = true /\ g <> 0 /\ w <> 0 /\ f <> 0.
Proof.
  assert (H : forallb (fun '(g, w, d, f) => mem_z g (gen_set v) && mem_z w (width_set v) && mem_z d (dw_set v) && mem_z f (freq_set v) &&
    negb (g =? 0) && negb (w =? 0) && negb (f =? 0)) (valid_configs v) = true) by (destruct v; vm_compute; reflexivity).
  rewrite forallb_forall in H. intros I0. specialize (H _ I0). cbn beta iota in H. rewrite !andb_true_iff in H.
  destruct H as ((((((H1 & H2) & H3) & H4) & H5) & H6) & H7). repeat split; try assumption; lia.
Qed.
Lemma mem_q_in f n l : Qeq f (inject_Z n) -> mem_z n l = true -> mem_q f l = true.
Proof.
  intros E H. unfold mem_z, mem_q in *. apply existsb_exists in H. destruct H as (y & Y & E2). apply existsb_exists. exists y. split; [exact Y|].
  apply qeqb. apply Z.eqb_eq in E2. subst y. exact E.
Qed.
Lemma selectable_split v port dw a g w d f : selectable v port dw a (g, w, d, f) = true <->
  fits a g w f = true /\ d = dw /\ (a_width a <> None -> port_lanes v port w = true).
Proof.
  unfold selectable, fits. destruct (a_width a) as [x|]; rewrite !andb_true_iff, Z.eqb_eq; intuition congruence.
Qed.

(** The result of the constructor, whatever way the settings were found. *)
Lemma setup_ok v port dw s a g w q : link_setup v port dw s a = Ok (g, w, q) ->
  exists f, Qeq q (inject_Z f) /\ In (g, w, dw, f) (valid_configs v) /\ port_lanes v port w = true /\ asked a g w f /\ check_straddle v dw s = Ok tt /\
    forall g' w' f', In (g', w', dw, f') (valid_configs v) -> port_lanes v port w' = true -> asked a g' w' f' -> no_better g w f g' w' f'.
Proof.
  unfold link_setup. destruct (mem_z dw (dw_set v)); [|discriminate]. cbn [py_assert bind]. fold (scaled a).
  destruct (a_freq (select v port dw (scaled a))) as [q0|] eqn:EF; [|discriminate].
  destruct (mem_oz (a_gen (select v port dw (scaled a))) (gen_set v)); [|discriminate]. cbn [py_assert bind].
  destruct (mem_oz (a_width (select v port dw (scaled a))) (width_set v)); [|discriminate]. cbn [py_assert bind].
  destruct (mem_q q0 (freq_set v)); [|discriminate]. cbn [py_assert bind].
  destruct (check_straddle v dw s) as [[]|]; [|discriminate]. cbn [bind].
  destruct (a_gen (select v port dw (scaled a))) as [g0|] eqn:EG; [|discriminate].
  destruct (a_width (select v port dw (scaled a))) as [w0|] eqn:EW; [|discriminate].
  match goal with |- context [py_assert ?b] => destruct b eqn:EX end; [|discriminate]. cbn [py_assert bind].
  intros H. assert (HH : g0 = g /\ w0 = w /\ q0 = q) by (inversion H; auto). clear H. destruct HH as (-> & -> & ->).
  apply existsb_exists in EX. destruct EX as ([[[g1 w1] d1] f1] & I1 & E1). rewrite !andb_true_iff, !Z.eqb_eq, qeqb in E1.
  destruct E1 as ((((<- & <-) & <-) & EQ) & PL). exists f1.
  assert (K : fits (scaled a) g w f1 = true /\
    forall g' w' f', In (g', w', dw, f') (valid_configs v) -> port_lanes v port w' = true -> fits (scaled a) g' w' f' = true -> no_better g w f1 g' w' f').
  { revert EF EG EW. unfold select.
    destruct (unset (a_gen (scaled a)) || unset (a_width (scaled a)) || unset_q (a_freq (scaled a))) eqn:U.
    - destruct (find (selectable v port dw (scaled a)) (rev (valid_configs v))) as [[[[g2 w2] d2] f2]|] eqn:F.
      + destruct (find_rev _ row_le _ _ (tables_sorted v) F) as (I2 & S2 & M). apply selectable_split in S2. destruct S2 as (T1 & -> & T2).
        unfold fits in T1. rewrite !andb_true_iff in T1. destruct T1 as ((A1 & A2) & A3). cbn [a_gen a_width a_freq]. intros EF EG EW.
        assert (R1 : g = g2). { clear -EG A1. destruct (a_gen (scaled a)) as [x|]; cbn [or_else agrees] in *; [|congruence]. apply Z.eqb_eq in A1. congruence. }
        assert (R2 : w = w2). { clear -EW A2. destruct (a_width (scaled a)) as [x|]; cbn [or_else agrees] in *; [|congruence]. apply Z.eqb_eq in A2. congruence. }
        assert (R3 : f1 = f2).
        { clear -EF A3 EQ. apply inject_eqb. rewrite qeqb. rewrite <- EQ. destruct (a_freq (scaled a)) as [x|]; cbn [or_else agrees_q] in *.
          - apply qeqb in A3. injection EF as ->. exact A3.
          - injection EF as <-. reflexivity. }
        subst g2 w2 f2. split; [unfold fits; rewrite A1, A2, A3; reflexivity|].
        intros g' w' f' I' P' F'. destruct (M (g', w', dw, f') I') as [E|E].
        * apply selectable_split. split; [exact F'|]. split; [reflexivity|]. intros _. exact P'.
        * unfold no_better. assert (Y : g' = g /\ w' = w /\ f' = f1) by (inversion E; auto). lia.
        * unfold row_le in E. unfold no_better. lia.
      + intros EF EG EW. exfalso. destruct (in_sets _ _ _ _ _ I1) as (_ & _ & _ & _ & G0 & W0 & F0). rewrite EG, EW, EF in U.
        cbn [unset unset_q] in U. rewrite !orb_true_iff, !Z.eqb_eq in U. destruct U as [[U|U]|H]; [congruence|congruence|]. apply F0. apply inject_eqb. apply qeqb in H. rewrite qeqb. rewrite <- EQ. exact H.
    - intros EF EG EW. unfold fits. rewrite EG, EW, EF. cbn [agrees agrees_q]. rewrite !Z.eqb_refl. cbn [andb]. split; [apply qeqb, EQ|].
      intros g' w' f' _ _ F'. rewrite !andb_true_iff, !Z.eqb_eq, qeqb in F'. destruct F' as ((<- & <-) & F'). unfold no_better.
      assert (f1 = f') by (apply inject_eqb; rewrite qeqb, <- EQ, <- F'; reflexivity). lia. }
  destruct K as (K1 & K2). split; [exact EQ|]. split; [exact I1|]. split; [exact PL|]. split; [apply fits_asked, K1|]. split; [reflexivity|].
  intros g' w' f' I' P' A'. apply K2; [exact I'|exact P'|]. apply fits_asked, A'.
Qed.
Lemma setup_complete v port dw s a g w f : (v <> VPtile \/ port <= 0 \/ a_width a <> None) -> check_straddle v dw s = Ok tt ->
  In (g, w, dw, f) (valid_configs v) -> port_lanes v port w = true -> asked a g w f -> exists r, link_setup v port dw s a = Ok r.
Proof.
  intros C ST I0 P A. apply fits_asked in A. unfold link_setup. fold (scaled a).
  destruct (in_sets _ _ _ _ _ I0) as (_ & _ & D0 & _). rewrite D0. cbn [py_assert bind].
  assert (K : exists g1 w1 f1 q1, select v port dw (scaled a) = mkArgs (Some g1) (Some w1) (Some q1) /\ Qeq q1 (inject_Z f1) /\
    In (g1, w1, dw, f1) (valid_configs v) /\ port_lanes v port w1 = true).
  { unfold select. destruct (unset (a_gen (scaled a)) || unset (a_width (scaled a)) || unset_q (a_freq (scaled a))) eqn:U.
    - destruct (find_exists (selectable v port dw (scaled a)) (valid_configs v) (g, w, dw, f) I0) as ([[[g1 w1] d1] f1] & F).
      { apply selectable_split. split; [exact A|]. split; [reflexivity|]. intros _. exact P. }
      rewrite F. apply find_some in F. destruct F as (F1 & F2). apply in_rev in F1. apply selectable_split in F2. destruct F2 as (F2 & -> & F3).
      unfold fits in F2. rewrite !andb_true_iff in F2. destruct F2 as ((F2 & F4) & F5).
      exists g1, w1, f1, (match a_freq (scaled a) with Some q => q | None => inject_Z f1 end).
      split; [f_equal|].
      + destruct (a_gen (scaled a)); cbn [or_else agrees] in *; [f_equal; lia|reflexivity].
      + destruct (a_width (scaled a)); cbn [or_else agrees] in *; [f_equal; lia|reflexivity].
      + destruct (a_freq (scaled a)); reflexivity.
      + split; [|split; [exact F1|]].
        * destruct (a_freq (scaled a)); cbn [agrees_q] in *; [apply qeqb, F5|reflexivity].
        * destruct C as [C|[C|C]].
          -- destruct v; try reflexivity. congruence.
          -- destruct v; cbn [port_lanes]; try reflexivity. lia.
          -- apply F3. exact C.
    - unfold fits in A. rewrite !andb_true_iff in A. destruct A as ((A1 & A2) & A3). revert A1 A2 A3 U. unfold scaled. cbn [a_gen a_width a_freq].
      destruct (a_gen a) as [g1|]; [|intros; discriminate]. destruct (a_width a) as [w1|]; [|intros _ _ _ U; cbn in U; rewrite orb_true_r in U; discriminate U].
      destruct (a_freq a) as [q1|]; [|intros _ _ _ U; cbn in U; rewrite orb_true_r in U; discriminate U].
      cbn [option_map agrees agrees_q]. rewrite !Z.eqb_eq, qeqb. intros -> -> E _. exists g, w, f, (rescale q1). repeat split; assumption. }
  destruct K as (g1 & w1 & f1 & q1 & -> & Q1 & I1 & P1). cbn [a_gen a_width a_freq mem_oz].
  destruct (in_sets _ _ _ _ _ I1) as (S1 & S2 & _ & S4 & _). rewrite S1, S2, (mem_q_in _ _ _ Q1 S4), ST. cbn [py_assert bind].
  match goal with |- context [py_assert ?b] => assert (E : b = true) end.
  { apply existsb_exists. exists (g1, w1, dw, f1). split; [exact I1|]. rewrite !Z.eqb_refl, P1. cbn [andb]. rewrite andb_true_r. apply qeqb, Q1. }
  rewrite E. cbn [py_assert bind]. eauto.
Qed.

(** ** Clock *)
Lemma clock_exact v port dw s a g w q : v <> VPtile -> link_setup v port dw s a = Ok (g, w, q) -> Qeq (Qmult (inject_Z (clock_ns q)) q) (inject_Z 1000000000).
Proof.
  intros V H. destruct (setup_ok _ _ _ _ _ _ _ _ H) as (f & E & I0 & _). destruct (in_sets _ _ _ _ _ I0) as (_ & _ & _ & F & _ & _ & F0).
  unfold clock_ns. rewrite (Qfloor_comp _ _ (Qdiv_comp _ _ (Qeq_refl (inject_Z 1000000000)) _ _ E)), E.
  clear -V F. unfold mem_z in F. apply existsb_exists in F. destruct F as (y & Y & E). apply Z.eqb_eq in E. subst y.
  destruct v; try congruence; cbn in Y; repeat (destruct Y as [<-|Y]; [vm_compute; reflexivity|]); destruct Y.
Qed.
Lemma straddle_us dw s : check_straddle VUs dw s = Ok tt <-> straddle_allowed VUs dw s.
Proof.
  unfold straddle_allowed, check_straddle. destruct s as [al cq cc rq rc rc4]. cbn [st_align st_cq st_cc st_rq st_rc st_rc4].
  destruct al; cbn [is_dword py_assert bind]; [|rewrite orb_true_r; destruct rc; cbn; intuition discriminate|intuition discriminate].
  rewrite orb_false_r. destruct (Z.ltb_spec dw 256); destruct rc; cbn; intuition (try discriminate; try lia).
Qed.
Lemma straddle_usp_allows dw s : straddle_allowed VUsp dw s -> check_straddle VUsp dw s = Ok tt.
Proof.
  unfold straddle_allowed, check_straddle. destruct s as [al cq cc rq rc rc4]. cbn [st_align st_cq st_cc st_rq st_rc st_rc4].
  intros (-> & R & Q). cbn [is_dword py_assert bind negb]. rewrite orb_false_r.
  destruct (Z.ltb_spec dw 256); [|reflexivity]. destruct (Q eq_refl) as (Q1 & Q2 & Q3 & Q4).
  destruct rc; [lia|]. destruct cq; [lia|]. destruct cc; [lia|]. destruct rq; [lia|]. destruct rc4; [lia|]. cbn.
  destruct (dw =? 512); reflexivity.
Qed.
Lemma straddle_usp dw s : check_straddle VUsp dw s = Ok tt -> dw <> 256 -> In dw (dw_set VUsp) -> straddle_allowed VUsp dw s.
Proof.
  unfold straddle_allowed, check_straddle. destruct s as [al cq cc rq rc rc4]. cbn [st_align st_cq st_cc st_rq st_rc st_rc4 dw_set In].
  intros H N D. destruct al; cbn [is_dword py_assert bind negb] in H; [|exfalso; revert H|discriminate].
  - split; [reflexivity|]. destruct D as [<-|[<-|[<-|[<-|[]]]]]; try congruence.
    + destruct rc, rq, cq, cc, rc4; cbn in H; try discriminate; repeat split; intros; congruence.
    + destruct rc, rq, cq, cc, rc4; cbn in H; try discriminate; repeat split; intros; congruence.
    + repeat split; intros; lia.
  - rewrite orb_true_r. destruct rc; [discriminate|]. cbn [negb py_assert bind]. destruct (negb (dw =? 512)); [|discriminate].
    destruct rq, cq, cc, rc4; discriminate.
Qed.
