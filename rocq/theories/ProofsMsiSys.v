(** Interrupts: all functions of a host. *)
From Verif Require Import Base BaseProofs Bits ModelUtils ModelTlp ModelRegion ModelCompleter ModelTags ModelAttrs ModelCaps ModelCapList ModelConfig ModelFunction ModelHost
  ModelPci ModelMsi SpecRegs SpecConfig SpecHost SpecMsi ProofsUtils ProofsMem ProofsRegs ProofsCaps ProofsCapFn ProofsConfig ProofsConfigTop ProofsHost ProofsBar ProofsProbe ProofsMsi.

(** ** One function *)
Definition fixed (m x : option nat) (f0 f : fnc) : Prop :=
  match m with Some i => msi_same (c_attr (f_heap f i)) (c_attr (f_heap f0 i)) | None => True end /\
  match x with
  | Some i => forall y, y <> mx_msix_enable -> y <> mx_msix_function_mask -> c_attr (f_heap f i) y = c_attr (f_heap f0 i) y
  | None => True
  end.
Record dinv (d : mdev) (f0 : fnc) (m x : option nat) (q : irq) (s : fstate) (r : msi_region) (AL : Prop) : Prop := {
  di_fn : irq_function d (fst s) m x;
  di_fix : fixed m x f0 (fst s);
  di_blk : block (q_vectors q);
  di_in : incl (q_vectors q) (mr_vectors r);
  di_al : AL -> match q_vectors q with [] => True | v :: _ => v_data v mod 32 = 0 /\ 32 <= zlen (q_vectors q) end;
  di_msi : q_msi q = true -> match m, q_vectors q with Some i, v :: _ => programmed (c_attr (f_heap (fst s) i)) (v_data v) | _, _ => False end;
  di_msix : q_msix q = true -> match x with
    | Some i => let a := c_attr (f_heap (fst s) i) in zbool (a mx_msix_enable) = true /\ table_entries a <= zlen (q_vectors q) /\
        forall j v, Z.of_nat j < table_entries a -> nth_error (q_vectors q) j = Some v -> entry_at (snd s) (table_bar a) (table_start a + Z.of_nat j * 16) v
    | None => False end
}.
Definition rstep (r r' : msi_region) (q q' : irq) (AL : Prop) : Prop :=
  rinv r' /\ (incl (mr_vectors r) (mr_vectors r') /\ (length (mr_vectors r) <= length (mr_vectors r'))%nat) /\ (q_vectors q' = q_vectors q \/ forall v, In v (q_vectors q') -> (length (mr_vectors r) <= v_obj v)%nat) /\
  (AL -> mr_limit r mod 32 = 0 -> mr_limit r' mod 32 = 0).
Lemma rstep_refl r q q' AL : rinv r -> q_vectors q' = q_vectors q -> rstep r r q q' AL.
Proof. intros R E. split; [exact R|]. split; [split; [apply incl_refl|lia]|]. split; [left; exact E|auto]. Qed.
Lemma dinv_grow d f0 m x q s r r' AL : dinv d f0 m x q s r AL -> incl (mr_vectors r) (mr_vectors r') -> dinv d f0 m x q s r' AL.
Proof. intros [A B C D E F G] I. constructor; try assumption. eapply incl_tran; eassumption. Qed.

Section Dev.
Variables (d : mdev) (f0 : fnc) (m x : option nat) (AL : Prop).
Lemma fn_kind f : irq_function d f m x -> kind_of d. Proof. intros (H & _). exact H. Qed.
Lemma fn_at f : irq_function d f m x -> at_id (d_id d) f. Proof. intros (_ & A & B & _). split; assumption. Qed.
Lemma fn_ne f i j : irq_function d f m x -> m = Some i -> x = Some j -> i <> j.
Proof. intros (_ & _ & _ & A & B) -> ->. destruct A as ((_ & _ & A & _) & _). destruct B as (_ & _ & B & _). intros ->. congruence. Qed.
Lemma m_step f f' i a : irq_function d f m x -> fixed m x f0 f -> m = Some i -> stepc d f f' i a -> msi_same a (c_attr (f_heap f i)) ->
  0 <= a ms_msi_message_address < 2 ^ 32 -> irq_function d f' m x /\ fixed m x f0 f' /\ forall j, x = Some j -> f_heap f' j = f_heap f j.
Proof.
  intros F X M S SM A. assert (NE : forall j, x = Some j -> f_heap f' j = f_heap f j).
  { intros j XJ. destruct (stepc_cap _ _ _ _ _ j S) as (_ & _ & _ & _ & H). apply H. intros ->. eapply (fn_ne f i i); eauto. }
  pose proof F as (F1 & F2 & F3 & F4 & F5). destruct X as [X1 X2]. rewrite M in F4, X1. destruct F4 as (F4 & F6 & F7). split; [|split; [|exact NE]].
  - split; [exact F1|]. destruct (sc_id _ _ _ _ _ S) as [I1 I2]. split; [exact I1|]. split; [exact I2|]. rewrite M. split.
    + split; [exact (stepc_placed _ _ _ _ _ _ _ _ _ S F4)|]. rewrite (stepc_attr _ _ _ _ _ S). split; [destruct SM as [-> _]; exact F6|exact A].
    + destruct x as [j|]; [|exact F5]. exact (stepc_placed _ _ _ _ _ _ _ _ _ S F5).
  - split.
    + rewrite M, (stepc_attr _ _ _ _ _ S). destruct SM as (A1 & A2 & A3), X1 as (B1 & B2 & B3). unfold msi_same. rewrite A1, A2, A3. auto.
    + destruct x as [j|]; [|exact Logic.I]. rewrite (NE j eq_refl). exact X2.
Qed.
Lemma x_step f f' i a : irq_function d f m x -> fixed m x f0 f -> x = Some i -> stepc d f f' i a ->
  (forall y, y <> mx_msix_enable -> y <> mx_msix_function_mask -> a y = c_attr (f_heap f i) y) ->
  irq_function d f' m x /\ fixed m x f0 f' /\ forall j, m = Some j -> f_heap f' j = f_heap f j.
Proof.
  intros F X M S SM. assert (NE : forall j, m = Some j -> f_heap f' j = f_heap f j).
  { intros j XJ. destruct (stepc_cap _ _ _ _ _ j S) as (_ & _ & _ & _ & H). apply H. intros ->. eapply (fn_ne f i i); eauto. }
  pose proof F as (F1 & F2 & F3 & F4 & F5). destruct X as [X1 X2]. rewrite M in F5, X2. split; [|split; [|exact NE]].
  - split; [exact F1|]. destruct (sc_id _ _ _ _ _ S) as [I1 I2]. split; [exact I1|]. split; [exact I2|]. rewrite M. split.
    + destruct m as [j|]; [|exact F4]. rewrite (NE j eq_refl). destruct F4 as (F4 & F6 & F7). split; [|auto]. exact (stepc_placed _ _ _ _ _ _ _ _ _ S F4).
    + exact (stepc_placed _ _ _ _ _ _ _ _ _ S F5).
  - split.
    + destruct m as [j|]; [|exact Logic.I]. rewrite (NE j eq_refl). exact X1.
    + rewrite M, (stepc_attr _ _ _ _ _ S). intros y N1 N2. rewrite SM by assumption. apply X2; assumption.
Qed.
Lemma id_step f : irq_function d f m x -> fixed m x f0 f -> irq_function d (with_id (d_id d) f) m x /\ fixed m x f0 (with_id (d_id d) f).
Proof. intros (F1 & F2 & F3 & F4 & F5) X. split; [|exact X]. split; [exact F1|]. split; [reflexivity|]. split; [reflexivity|]. split; assumption. Qed.
Lemma dinv_id q f t r : dinv d f0 m x q (f, t) r AL -> dinv d f0 m x q (with_id (d_id d) f, t) r AL.
Proof. intros [A B C D E F G]. destruct (id_step f A B) as [A' B']. constructor; assumption. Qed.

Lemma msi_off q f t r i : dinv d f0 m x q (f, t) r AL -> m = Some i ->
  exists f', msi_set_enable (d_cr d) (d_cw d) (d_co d) false q (f, t) = Ok (mkIrq (q_vectors q) false (q_msix q), (f', t)) /\
    dinv d f0 m x (mkIrq (q_vectors q) false (q_msix q)) (f', t) r AL.
Proof.
  intros [A B C D E F G] M. cbn [fst snd] in *. pose proof A as (_ & _ & _ & A4 & _). rewrite M in A4. destruct A4 as (A4 & A5 & A6).
  destruct (msi_enable d (fn_kind f A) i 4 false f t A4 ltac:(lia) (fn_at f A)) as (f' & a & H & S1 & _ & O1 & _). exists f'. unfold msi_set_enable. rewrite H. split; [reflexivity|].
  destruct (m_step f f' i a A B M S1) as (A' & B' & NE). { split; [|split]; apply O1; discriminate. } { rewrite O1 by discriminate. exact A6. }
  constructor; cbn [fst snd q_vectors q_msi q_msix]; try assumption; [discriminate|]. intros Q. specialize (G Q). destruct x as [j|]; [|exact G]. rewrite (NE j eq_refl). exact G.
Qed.
Lemma msix_off q f t r i : dinv d f0 m x q (f, t) r AL -> x = Some i ->
  exists f', msix_set_enable (d_cr d) (d_cw d) (d_co d) false q (f, t) = Ok (mkIrq (q_vectors q) (q_msi q) false, (f', t)) /\
    dinv d f0 m x (mkIrq (q_vectors q) (q_msi q) false) (f', t) r AL.
Proof.
  intros [A B C D E F G] M. cbn [fst snd] in *. pose proof A as (_ & _ & _ & _ & A4). rewrite M in A4.
  destruct (msix_enable d (fn_kind f A) i 3 false f t A4 ltac:(lia) (fn_at f A)) as (f' & a & H & S1 & _ & O1 & _). exists f'. unfold msix_set_enable. rewrite H. split; [reflexivity|].
  destruct (x_step f f' i a A B M S1 O1) as (A' & B' & NE).
  constructor; cbn [fst snd q_vectors q_msi q_msix]; try assumption; [|discriminate]. intros Q. specialize (F Q). destruct m as [j|]; [|exact F]. rewrite (NE j eq_refl). exact F.
Qed.
Lemma vectors_ok n q s r vs r' : dinv d f0 m x q s r AL -> rinv r -> 1 <= n -> (AL -> n mod 32 = 0) -> (AL -> mr_limit r mod 32 = 0) -> vectors_for n q r = (vs, r') ->
  rinv r' /\ block vs /\ incl vs (mr_vectors r') /\ (incl (mr_vectors r) (mr_vectors r') /\ (length (mr_vectors r) <= length (mr_vectors r'))%nat) /\ (vs = q_vectors q \/ forall v, In v vs -> (length (mr_vectors r) <= v_obj v)%nat) /\
  (AL -> mr_limit r' mod 32 = 0) /\ exists v l, vs = v :: l /\ v_addr v = msi_base /\ 0 <= v_data v /\ (AL -> v_data v mod 32 = 0 /\ 32 <= zlen vs).
Proof.
  intros [A B C D E F G] R N AN AR V. unfold vectors_for in V. destruct (q_vectors q) as [|v l].
  - pose proof (alloc_spec n r R) as S. rewrite V in S. destruct S as (S1 & S2 & S3 & S4 & S5 & S6 & S7 & S8). split; [exact S1|]. split; [exact S2|].
    split; [rewrite S4; apply incl_appl, incl_refl|]. split; [rewrite S4, app_length; split; [apply incl_appr, incl_refl|lia]|]. split; [right; exact S7|].
    split; [intros H; specialize (AN H); specialize (AR H); clear - AN AR S6 N; lia|].
    destruct vs as [|v l]; [change (zlen (@nil vec)) with 0 in S3; lia|]. exists v, l. split; [reflexivity|].
    destruct (ri_vec r' S1 v) as (V1 & V2 & _); [rewrite S4; left; reflexivity|]. split; [exact V1|]. split; [lia|]. intros H. specialize (AN H). specialize (AR H). rewrite S8.
    split; [exact AR|]. rewrite S3. clear - N AN. lia.
  - injection V as <- <-. split; [exact R|]. split; [exact C|]. split; [exact D|]. split; [split; [apply incl_refl|lia]|]. split; [left; reflexivity|]. split; [exact AR|].
    exists v, l. split; [reflexivity|]. destruct (ri_vec r R v) as (V1 & V2 & _); [apply D; left; reflexivity|]. split; [exact V1|]. split; [lia|]. exact E.
Qed.
Lemma co_m f : irq_function d f m x -> zbool (d_co d MSI_ID) = true -> exists i, m = Some i.
Proof. intros (_ & _ & _ & A & _) H. destruct m as [i|]; [exists i; reflexivity|]. rewrite A in H. discriminate. Qed.
Lemma co_x f : irq_function d f m x -> zbool (d_co d MSIX_ID) = true -> exists i, x = Some i.
Proof. intros (_ & _ & _ & _ & A) H. destruct x as [i|]; [exists i; reflexivity|]. rewrite A in H. discriminate. Qed.

Hypothesis SZ : AL -> size32 x f0.
Lemma msi_range_ok mn mx q f t r q' r' s' n : dinv d f0 m x q (f, t) r AL -> rinv r -> (AL -> mr_limit r mod 32 = 0) ->
  enable_msi_range (d_cr d) (d_cw d) (d_co d) mn mx q r (f, t) = Ok (q', r', s', n) -> dinv d f0 m x q' s' r' AL /\ rstep r r' q q' AL.
Proof.
  intros I R AR H. assert (RR : rstep r r q q AL) by (apply rstep_refl; [exact R|reflexivity]).
  assert (SAME : Ok (q, r, (f, t), -1) = Ok (q', r', s', n) -> dinv d f0 m x q' s' r' AL /\ rstep r r' q q' AL).
  { intros E. apply Ok_inj in E. injection E as <- <- <- <-. auto. }
  unfold enable_msi_range in H. destruct (zbool (d_co d MSI_ID)) eqn:CO; [|exact (SAME H)]. cbn [negb] in H. destruct (q_msix q) eqn:QX; [exact (SAME H)|].
  destruct (mx <? mn); [exact (SAME H)|]. destruct (q_msi q); [exact (SAME H)|]. clear SAME.
  destruct (co_m f (di_fn _ _ _ _ _ _ _ _ I) CO) as [i M]. pose proof I as [A B C D E F G]. cbn [fst snd] in *. pose proof A as (_ & _ & _ & A4 & _). rewrite M in A4. destruct A4 as (A4 & A5 & A6).
  pose proof A4 as (_ & _ & KD & _). destruct (msi_ctrl _ KD) as (c & RD & CV & _).
  rewrite (cap_rd_ctrl d (fn_kind f A) MSI_ID i KMsi 4 c f t A4 ltac:(lia) (fn_at f A) RD CV) in H. cbn [bind] in H. cbv zeta in H.
  apply dinv_id in I. set (f1 := with_id (d_id d) f) in *. destruct (_ <? mn). { apply Ok_inj in H. injection H as <- <- <- <-. auto. }
  destruct (vectors_for 32 q r) as [vs r1] eqn:VF.
  destruct (vectors_ok 32 q (f1, t) r vs r1 I R ltac:(lia) ltac:(intros; reflexivity) AR VF) as (V1 & V2 & V3 & V4 & V5 & V6 & v & l & V7 & V8 & V9 & V10).
  pose proof (msi_init d (fn_kind f A) q r f1 t i vs r1 v l A4 ltac:(split; reflexivity) A5 A6 VF V7 V8 V9) as MI.
  destruct (v_data v <? 2 ^ 32); [|destruct MI as [e MI]; rewrite MI in H; discriminate H].
  destruct MI as (f2 & a & MI & S & PG & SM). rewrite MI in H. cbn [bind] in H. apply Ok_inj in H. injection H as <- <- <- <-.
  destruct I as [A' B' C' D' E' F' G']. cbn [fst snd] in *.
  destruct (m_step f1 f2 i a A' B' M S SM) as (A2 & B2 & NE). { destruct PG as (_ & _ & -> & _). unfold msi_base. lia. }
  split.
  - constructor; cbn [fst snd q_vectors q_msi q_msix]; try assumption.
    + intros H. rewrite V7. rewrite <- V7. apply V10. exact H.
    + intros _. rewrite M, V7, (stepc_attr _ _ _ _ _ S). exact PG.
    + rewrite QX. discriminate.
  - split; [exact V1|]. split; [exact V4|]. split; [exact V5|auto].
Qed.
Lemma msix_range_ok mn mx q f t r q' r' s' n : dinv d f0 m x q (f, t) r AL -> rinv r -> (AL -> mr_limit r mod 32 = 0) ->
  enable_msix_range (d_cr d) (d_cw d) (d_co d) d_bw d_br mn mx q r (f, t) = Ok (q', r', s', n) -> dinv d f0 m x q' s' r' AL /\ rstep r r' q q' AL.
Proof.
  intros I R AR H. assert (RR : rstep r r q q AL) by (apply rstep_refl; [exact R|reflexivity]).
  assert (SAME : Ok (q, r, (f, t), -1) = Ok (q', r', s', n) -> dinv d f0 m x q' s' r' AL /\ rstep r r' q q' AL).
  { intros E. apply Ok_inj in E. injection E as <- <- <- <-. auto. }
  unfold enable_msix_range in H. destruct (zbool (d_co d MSIX_ID)) eqn:CO; [|exact (SAME H)]. cbn [negb] in H. destruct (q_msi q) eqn:QX; [exact (SAME H)|].
  destruct (mx <? mn); [exact (SAME H)|]. destruct (q_msix q); [exact (SAME H)|]. clear SAME.
  destruct (co_x f (di_fn _ _ _ _ _ _ _ _ I) CO) as [i M]. pose proof I as [A B C D E F G]. cbn [fst snd] in *. pose proof A as (_ & _ & _ & _ & A4). rewrite M in A4.
  pose proof A4 as (_ & _ & KD & _). destruct (msix_ctrl _ KD) as (c & RD & CV & _).
  rewrite (cap_rd_ctrl d (fn_kind f A) MSIX_ID i KMsix 3 c f t A4 ltac:(lia) (fn_at f A) RD CV) in H. cbn [bind] in H. cbv zeta in H.
  apply dinv_id in I. set (f1 := with_id (d_id d) f) in *. destruct (_ <? mn). { apply Ok_inj in H. injection H as <- <- <- <-. auto. }
  assert (EN : table_entries (c_attr (f_heap f i)) = table_entries (c_attr (f_heap f0 i))).
  { destruct B as [_ B]. rewrite M in B. unfold table_entries. rewrite B by discriminate. reflexivity. }
  destruct (vectors_for (table_entries (c_attr (f_heap f1 i))) q r) as [vs r1] eqn:VF. change (f_heap f1) with (f_heap f) in VF.
  destruct (vectors_ok (table_entries (c_attr (f_heap f i))) q (f1, t) r vs r1 I R ltac:(unfold table_entries; lia) ltac:(intros H1; rewrite EN; specialize (SZ H1); rewrite M in SZ; exact SZ) AR VF)
    as (V1 & V2 & V3 & V4 & V5 & V6 & v & l & V7 & V8 & V9 & V10).
  pose proof (msix_init d (fn_kind f A) q r f1 t i vs r1 A4 ltac:(split; reflexivity) VF) as MI. change (f_heap f1) with (f_heap f) in MI.
  destruct (Z.leb_spec (table_entries (c_attr (f_heap f i))) (zlen vs)) as [LE|LE]; [|rewrite MI in H; discriminate H].
  destruct MI as (f2 & t2 & a & MI & S & EN2 & SM & TB). rewrite MI in H. cbn [bind] in H. apply Ok_inj in H. injection H as <- <- <- <-.
  destruct I as [A' B' C' D' E' F' G']. cbn [fst snd] in *.
  destruct (x_step f1 f2 i a A' B' M S SM) as (A2 & B2 & NE). split.
  - assert (EA : table_entries a = table_entries (c_attr (f_heap f i))) by (unfold table_entries; rewrite SM by discriminate; reflexivity).
    constructor; cbn [fst snd q_vectors q_msi q_msix]; try assumption.
    + intros H. rewrite V7. rewrite <- V7. apply V10. exact H.
    + rewrite QX. discriminate.
    + intros _. rewrite M, (stepc_attr _ _ _ _ _ S). cbv zeta. rewrite EA. auto.
  - split; [exact V1|]. split; [exact V4|]. split; [exact V5|auto].
Qed.
Lemma rstep_trans r r1 r2 q q1 q2 : rstep r r1 q q1 AL -> rstep r1 r2 q1 q2 AL -> rstep r r2 q q2 AL.
Proof.
  intros (A1 & (A2 & A3) & A4 & A5) (B1 & (B2 & B3) & B4 & B5). split; [exact B1|]. split; [split; [eapply incl_tran; eassumption|lia]|]. split; [|auto].
  destruct B4 as [->|B4]; [exact A4|]. right. intros v Hv. specialize (B4 v Hv). lia.
Qed.
Lemma alloc_ok mn mx q s r q' r' s' n : dinv d f0 m x q s r AL -> rinv r -> (AL -> mr_limit r mod 32 = 0) ->
  alloc_irq_vectors (d_cr d) (d_cw d) (d_co d) d_bw d_br mn mx q r s = Ok (q', r', s', n) -> dinv d f0 m x q' s' r' AL /\ rstep r r' q q' AL.
Proof.
  intros I R AR H. unfold alloc_irq_vectors in H. destruct s as [f t]. destruct (enable_msix_range _ _ _ _ _ _ _ _ _ _) as [[[[q1 r1] [f1 t1]] n1]|] eqn:E; [|discriminate H].
  cbn [bind] in H. destruct (msix_range_ok _ _ _ _ _ _ _ _ _ _ I R AR E) as [I1 S1]. destruct (0 <? n1).
  - apply Ok_inj in H. injection H as <- <- <- <-. auto.
  - pose proof S1 as (R1 & _ & _ & L1). destruct (msi_range_ok _ _ _ _ _ _ _ _ _ _ I1 R1 ltac:(auto) H) as [I2 S2]. split; [exact I2|]. eapply rstep_trans; eassumption.
Qed.
Lemma init_ok q s r q' s' : dinv d f0 m x q s r AL -> init_capabilities (d_cr d) (d_cw d) (d_co d) q s = Ok (q', s') ->
  dinv d f0 m x q' s' r AL /\ q_vectors q' = q_vectors q.
Proof.
  intros I H. unfold init_capabilities in H.
  assert (H1 : exists q1 s1, (if zbool (d_co d MSI_ID) then msi_set_enable (d_cr d) (d_cw d) (d_co d) false q s else Ok (q, s)) = Ok (q1, s1) /\
    dinv d f0 m x q1 s1 r AL /\ q_vectors q1 = q_vectors q).
  { destruct s as [f t]. destruct (zbool (d_co d MSI_ID)) eqn:CO; [|exists q, (f, t); auto]. destruct (co_m f (di_fn _ _ _ _ _ _ _ _ I) CO) as [i M].
    destruct (msi_off _ _ _ _ _ I M) as (f1 & E & I1). eexists _, (f1, t). split; [exact E|auto]. }
  destruct H1 as (q1 & [f1 t] & E & I1 & V1). rewrite E in H. cbn [bind] in H. rewrite <- V1. destruct (zbool (d_co d MSIX_ID)) eqn:CO.
  - destruct (co_x f1 (di_fn _ _ _ _ _ _ _ _ I1) CO) as [i M]. destruct (msix_off _ _ _ _ _ I1 M) as (f2 & E2 & I2). rewrite E2 in H. apply Ok_inj in H. injection H as <- <-. auto.
  - apply Ok_inj in H. injection H as <- <-. auto.
Qed.
Lemma free_ok q s r q' s' : dinv d f0 m x q s r AL -> free_irq_vectors (d_cr d) (d_cw d) (d_co d) q s = Ok (q', s') ->
  dinv d f0 m x q' s' r AL /\ q_vectors q' = q_vectors q.
Proof.
  intros I H. unfold free_irq_vectors in H.
  assert (H1 : exists q1 s1, (if q_msi q then msi_set_enable (d_cr d) (d_cw d) (d_co d) false q s else Ok (q, s)) = Ok (q1, s1) /\
    dinv d f0 m x q1 s1 r AL /\ q_vectors q1 = q_vectors q).
  { destruct s as [f t]. destruct (q_msi q) eqn:Q; [|exists q, (f, t); auto]. pose proof (di_msi _ _ _ _ _ _ _ _ I Q) as M. destruct m as [i|] eqn:EM; [|destruct M]. rewrite <- EM in *.
    destruct (msi_off _ _ _ _ _ I EM) as (f1 & E & I1). eexists _, (f1, t). split; [exact E|auto]. }
  destruct H1 as (q1 & [f1 t] & E & I1 & V1). rewrite E in H. cbn [bind] in H. rewrite <- V1. destruct (q_msix q1) eqn:Q.
  - pose proof (di_msix _ _ _ _ _ _ _ _ I1 Q) as M. destruct x as [i|] eqn:EX; [|destruct M]. rewrite <- EX in *.
    destruct (msix_off _ _ _ _ _ I1 EX) as (f2 & E2 & I2). rewrite E2 in H. apply Ok_inj in H. injection H as <- <-. auto.
  - apply Ok_inj in H. injection H as <- <-. auto.
Qed.
End Dev.

(** ** The host *)
Section Host.
Variables (dev : nat -> mdev) (f0 : nat -> fstate) (m x : nat -> option nat) (AL : Prop).
Hypothesis SZ : AL -> forall i, size32 (x i) (fst (f0 i)).
Record yinv (y : msys) : Prop := {
  yi_r : rinv (y_region y);
  yi_al : AL -> mr_limit (y_region y) mod 32 = 0;
  yi_d : forall i, dinv (dev i) (fst (f0 i)) (m i) (x i) (y_irq y i) (y_fn y i) (y_region y) AL;
  yi_sep : forall i j v w, i <> j -> In v (q_vectors (y_irq y i)) -> In w (q_vectors (y_irq y j)) -> v_obj v <> v_obj w
}.
Lemma y_init : (forall i, irq_function (dev i) (fst (f0 i)) (m i) (x i)) -> yinv (msys0 f0).
Proof.
  intros F. constructor; cbn.
  - constructor; cbn; try (intros v []); try lia; constructor.
  - reflexivity.
  - intros i. constructor; cbn; try discriminate; try exact (fun _ => Logic.I); [apply F| |exists 0, O; split; [lia|reflexivity]|intros v []].
    split; [destruct (m i); [split; [|split]; reflexivity|exact Logic.I]|destruct (x i); [reflexivity|exact Logic.I]].
  - intros i j v w _ [].
Qed.
Lemma y_update y i q r s : yinv y -> dinv (dev i) (fst (f0 i)) (m i) (x i) q s r AL -> rstep (y_region y) r (y_irq y i) q AL ->
  yinv (mkSys r (at_set i q (y_irq y)) (at_set i s (y_fn y))).
Proof.
  intros [A B C D] I (R1 & (R2 & R3) & R4 & R5). constructor; cbn [y_region y_irq y_fn].
  - exact R1.
  - auto.
  - intros j. unfold at_set. destruct (Nat.eqb_spec j i) as [->|N]; [exact I|]. eapply dinv_grow; [apply C|exact R2].
  - assert (P : forall j v w, j <> i -> In v (q_vectors q) -> In w (q_vectors (y_irq y j)) -> v_obj v <> v_obj w).
    { intros j v w N Hv Hw. destruct R4 as [E|F]; [rewrite E in Hv; apply (D i j); auto|]. specialize (F v Hv).
      destruct (ri_vec _ A w) as (_ & _ & L); [apply (di_in _ _ _ _ _ _ _ _ (C j)); exact Hw|]. lia. }
    intros j k v w N. unfold at_set. destruct (Nat.eqb_spec j i) as [->|N1], (Nat.eqb_spec k i) as [->|N2]; intros Hv Hw.
    + congruence.
    + apply (P k); assumption.
    + apply not_eq_sym. apply (P j); assumption.
    + apply (D j k); assumption.
Qed.
Lemma y_step o y y' : yinv y -> mstep dev o y = Ok y' -> yinv y'.
Proof.
  intros I H. pose proof I as [A B C D]. destruct o as [i|i mn mx|i]; cbn [mstep] in H.
  - destruct (init_capabilities _ _ _ _ _) as [[q s]|] eqn:E; [|discriminate H]. apply Ok_inj in H. subst y'. destruct (init_ok _ _ _ _ _ _ _ _ _ _ (C i) E) as [I1 V1].
    apply y_update; [exact I|exact I1|]. apply rstep_refl; assumption.
  - destruct (alloc_irq_vectors _ _ _ _ _ _ _ _ _ _) as [[[[q r] s] n]|] eqn:E; [|discriminate H]. apply Ok_inj in H. subst y'.
    destruct (alloc_ok _ _ _ _ _ (fun a => SZ a i) _ _ _ _ _ _ _ _ _ (C i) A B E) as [I1 S1]. apply y_update; assumption.
  - destruct (free_irq_vectors _ _ _ _ _) as [[q s]|] eqn:E; [|discriminate H]. apply Ok_inj in H. subst y'. destruct (free_ok _ _ _ _ _ (fun a => SZ a i) _ _ _ _ _ (C i) E) as [I1 V1].
    apply y_update; [exact I|exact I1|]. apply rstep_refl; assumption.
Qed.
Lemma y_run ops : forall y y', yinv y -> mrun dev ops y = Ok y' -> yinv y'.
Proof.
  induction ops as [|o ops IH]; intros y y' I H; cbn [mrun] in H; [apply Ok_inj in H; subst; exact I|].
  destruct (mstep dev o y) as [y1|] eqn:E; [|discriminate H]. apply (IH y1); [exact (y_step _ _ _ I E)|exact H].
Qed.
End Host.

(** ** Messages *)
Lemma send_ok c r n v : rinv r -> In v (mr_vectors r) -> n = v_data v -> 0 <= n < 2 ^ 32 -> rq_bus_master c = true -> 0 <= rq_mps c ->
  send_message c r (Ok (msi_base, le_bytes 4 n)) = Ok [v_obj v].
Proof.
  intros R V -> N BM MP. unfold send_message. cbn [bind]. unfold mem_write. rewrite BM. cbn [negb]. change (zlen (le_bytes 4 (v_data v)) =? 0) with false. cbv iota zeta.
  assert (FL : from_le (le_bytes 4 (v_data v)) = v_data v) by (apply from_le_le_bytes; change (256 ^ Z.of_nat 4) with (2 ^ 32); exact N).
  destruct (le_bytes 4 (v_data v)) as [|b0 [|b1 [|b2 [|b3 [|]]]]] eqn:LB; try discriminate LB. clear LB. cbn [length bind write_split].
  change (zlen [b0; b1; b2; b3]) with 4. change (0 <? 4) with true. cbv iota zeta.
  assert (WL : write_len (rq_mps c) msi_base 4 = 4).
  { unfold write_len. assert (128 * 1 <= Z.shiftl 128 (rq_mps c)).
    { rewrite Z.shiftl_mul_pow2 by lia. pose proof (Z.pow_pos_nonneg 2 (rq_mps c)). apply Z.mul_le_mono_nonneg_l; lia. }
    change (msi_base mod 4) with 0. change (Z.land msi_base 0xfff) with 0. lia. }
  rewrite WL. change (skipn (Z.to_nat 4) [b0; b1; b2; b3]) with (@nil Z). change (0 <? zlen (@nil Z)) with false. cbv iota. cbn [arrive].
  assert (E : rc_msi_write r (set_addr_be_data msi_base (ModelRegion.slice 0 4 [b0; b1; b2; b3]) (new_mem_req c msi_base MEM_WRITE MEM_WRITE_64)) =
    (n <- msi_region_write r 0 [b0; b1; b2; b3] ;; Ok [n])) by reflexivity.
  rewrite E. unfold msi_region_write. cbn [Z.eqb py_assert bind]. change (zlen [b0; b1; b2; b3] =? 4) with true. cbn [py_assert bind].
  rewrite FL, (find_vec r v R V). reflexivity.
Qed.
Lemma message_number b e k : 0 <= e <= 5 -> b mod 32 = 0 -> 0 <= k < 2 ^ e -> Z.lor (Z.land b (Z.lnot (2 ^ e - 1))) k = b + k.
Proof.
  intros E B K. assert (P : 32 = 2 ^ e * 2 ^ (5 - e)) by (rewrite <- Z.pow_add_r by lia; replace (e + (5 - e)) with 5 by lia; reflexivity).
  assert (M : b mod 2 ^ e = 0).
  { pose proof (Z.pow_pos_nonneg 2 e ltac:(lia) ltac:(lia)). apply Z.mod_divide in B; [|lia]. apply Z.mod_divide; [lia|]. destruct B as [z ->]. exists (z * 2 ^ (5 - e)). rewrite P. ring. }
  assert (LOW : forall j, 0 <= j < e -> Z.testbit b j = false) by (intros j Hj; rewrite <- (Z.mod_pow2_bits_low b e j) by lia; rewrite M; apply Z.bits_0).
  assert (L : Z.land b (Z.lnot (2 ^ e - 1)) = b).
  { replace (2 ^ e - 1) with (Z.ones e) by (rewrite Z.ones_equiv; lia). apply Z.bits_inj'. intros j Hj. rewrite Z.land_spec, Z.lnot_spec, Z.testbit_ones_nonneg by lia.
    destruct (Z.ltb_spec j e); [rewrite LOW by lia; reflexivity|rewrite andb_true_r; reflexivity]. }
  rewrite L. assert (S : b = Z.shiftl (b / 2 ^ e) e).
  { rewrite Z.shiftl_mul_pow2 by lia. pose proof (Z.div_mod b (2 ^ e) ltac:(lia)). lia. }
  rewrite S at 1. rewrite lor_disjoint_add by lia. rewrite <- Z.shiftl_mul_pow2, <- S by lia. reflexivity.
Qed.
Lemma block_nth vs k v0 l : block vs -> vs = v0 :: l -> 0 <= k < zlen vs -> exists v, nth_error vs (Z.to_nat k) = Some v /\ v_data v = v_data v0 + k.
Proof.
  intros (b & n0 & B & E) C K. unfold zlen in K. rewrite E in C. rewrite E. destruct (length vs) as [|n] eqn:LN; [cbn in K; lia|].
  cbn [List.seq map] in C. injection C as C _. exists (mkVec msi_base (b + k) (n0 + Z.to_nat k)).
  split; [|rewrite <- C; cbn; lia]. rewrite nth_error_map.
  assert (N : nth_error (List.seq 0 (S n)) (Z.to_nat k) = Some (Z.to_nat k)).
  { rewrite (nth_error_nth' _ O) by (rewrite seq_length; lia). rewrite seq_nth by lia. reflexivity. }
  rewrite N. cbn. f_equal. f_equal. lia.
Qed.
Lemma block_inj vs j k v w : block vs -> nth_error vs j = Some v -> nth_error vs k = Some w -> j <> k -> v_obj v <> v_obj w.
Proof.
  intros (b & n0 & B & E) J K N. rewrite E in J, K. rewrite nth_error_map in J, K.
  assert (S : forall i z n, nth_error (List.seq 0 n) i = Some z -> z = i).
  { intros i z n H. assert (i < n)%nat by (rewrite <- (seq_length n 0); apply nth_error_Some; congruence). rewrite (nth_error_nth' _ O) in H by (rewrite seq_length; lia).
    rewrite seq_nth in H by lia. injection H as <-. reflexivity. }
  destruct (nth_error (List.seq 0 _) j) as [a|] eqn:A; [|discriminate J]. destruct (nth_error (List.seq 0 _) k) as [c|] eqn:C; [|discriminate K].
  apply S in A. apply S in C. injection J as <-. injection K as <-. cbn. lia.
Qed.

Section Top.
Variables (dev : nat -> mdev) (f0 : nat -> fstate) (m x : nat -> option nat).
Hypothesis FN : forall i, irq_function (dev i) (fst (f0 i)) (m i) (x i).
Lemma own_ok AL y i k v : yinv dev f0 m x AL y -> nth_error (q_vectors (y_irq y i)) k = Some v -> own_event y i k v.
Proof.
  intros [A B C D] H. split; [exact H|]. intros i' k' w W N. destruct (Nat.eq_dec i' i) as [->|NI].
  - apply (block_inj _ _ _ _ _ (di_blk _ _ _ _ _ _ _ _ (C i)) W H). congruence.
  - apply (D i' i); [exact NI|eapply nth_error_In; exact W|eapply nth_error_In; exact H].
Qed.
Lemma msix_fires ops y i j k c : mrun dev ops (msys0 f0) = Ok y -> q_msix (y_irq y i) = true -> x i = Some j ->
  let a := c_attr (f_heap (fst (y_fn y i)) j) in let t := snd (y_fn y i) (table_bar a) in let e := table_start a + 16 * Z.of_nat k in
  Z.of_nat k < table_entries a -> mr_limit (y_region y) <= 2 ^ 32 -> rq_bus_master c = true -> 0 <= rq_mps c ->
  exists v, own_event y i k v /\ t (e + 12) = 0 /\
    send_message c (y_region y) (issue_msix a (t e + 2 ^ 32 * t (e + 4)) (t (e + 8))) = Ok [v_obj v].
Proof.
  intros RUN QX XJ a t e KN LIM BM MP. pose proof (y_run dev f0 m x False ltac:(intros []) ops _ _ (y_init dev f0 m x False ltac:(intros []) FN) RUN) as I.
  pose proof I as [A B C D]. pose proof (C i) as [_ _ _ DI _ _ G]. specialize (G QX). rewrite XJ in G. fold a in G. destruct G as (G1 & G2 & G3).
  destruct (nth_error (q_vectors (y_irq y i)) k) as [v|] eqn:NE; [|apply nth_error_None in NE; unfold zlen in G2; lia].
  exists v. split; [exact (own_ok _ _ _ _ _ I NE)|]. specialize (G3 k v KN NE). unfold entry_at in G3. fold t in G3. replace (table_start a + Z.of_nat k * 16) with e in G3 by (unfold e; lia).
  rewrite Z.add_0_r in G3. destruct G3 as (E0 & E4 & E8 & E12). assert (IV : In v (mr_vectors (y_region y))) by (apply DI; eapply nth_error_In; exact NE).
  destruct (ri_vec _ A v IV) as (V1 & V2 & _). split; [exact E12|]. rewrite E0, E4, E8, V1. change (Z.land msi_base 0xfffffffc + 2 ^ 32 * Z.land (Z.shiftr msi_base 32) 0xffffffff) with msi_base.
  change 0xffffffff with (Z.ones 32). rewrite Z.land_ones by lia. rewrite Z.mod_small by lia. unfold issue_msix, pack_L. rewrite G1. cbn [negb].
  replace ((0 <=? v_data v) && (v_data v <? 2 ^ 32)) with true by lia. cbn [bind]. apply send_ok; try assumption; [reflexivity|lia].
Qed.
Lemma msi_fires ops y i j k c : mrun dev ops (msys0 f0) = Ok y -> (forall i, size32 (x i) (fst (f0 i))) -> q_msi (y_irq y i) = true -> m i = Some j ->
  let a := c_attr (f_heap (fst (y_fn y i)) j) in
  0 <= k < 2 ^ a ms_msi_multiple_message_capable ->
  mr_limit (y_region y) <= (if zbool (a ms_msi_extended_message_data_capable) then 2 ^ 32 else 2 ^ 16) -> rq_bus_master c = true -> 0 <= rq_mps c ->
  exists v, own_event y i (Z.to_nat k) v /\ send_message c (y_region y) (issue_msi a k) = Ok [v_obj v].
Proof.
  intros RUN SZ QM MJ a KN LIM BM MP. pose proof (y_run dev f0 m x True ltac:(intros _; exact SZ) ops _ _ (y_init dev f0 m x True ltac:(intros _; exact SZ) FN) RUN) as I.
  pose proof I as [A B C D]. pose proof (C i) as [FI _ BL DI AL F _]. specialize (F QM). specialize (AL Logic.I). rewrite MJ in F. fold a in F.
  destruct FI as (_ & _ & _ & FI & _). rewrite MJ in FI. destruct FI as (_ & FI & _). fold a in FI.
  destruct (q_vectors (y_irq y i)) as [|v0 l] eqn:VS; [destruct F|]. destruct AL as [AL1 AL2]. destruct F as (P1 & P2 & P3 & P4).
  assert (K32 : 2 ^ a ms_msi_multiple_message_capable <= 2 ^ 5) by (apply Z.pow_le_mono_r; lia). change (2 ^ 5) with 32 in K32.
  destruct (block_nth _ k v0 l BL eq_refl ltac:(lia)) as (v & NV & DV). rewrite <- VS in NV. exists v. split; [exact (own_ok _ _ _ _ _ I NV)|].
  assert (IV : In v (mr_vectors (y_region y))) by (apply DI; rewrite <- VS; eapply nth_error_In; exact NV).
  destruct (ri_vec _ A v IV) as (V1 & V2 & _). destruct (ri_vec _ A v0 ltac:(apply DI; left; reflexivity)) as (_ & V3 & _).
  unfold issue_msi. rewrite P1, P2, Z.min_id. cbn [negb]. replace ((k <? 0) || (2 ^ a ms_msi_multiple_message_capable <=? k)) with false by lia. cbv zeta.
  assert (DD : (if zbool (a ms_msi_extended_message_data_capable) && zbool (a ms_msi_extended_message_data_enable) then a ms_msi_message_data
     else Z.land (a ms_msi_message_data) 0xffff) = v_data v0).
  { destruct (zbool (a ms_msi_extended_message_data_capable)).
    - destruct P4 as [-> P4]. exact P4.
    - cbn [andb]. rewrite P4. change 0xffff with (Z.ones 16). rewrite Z.land_ones by lia. change (2 ^ 16) with 65536 in *. rewrite Z.mod_mod by lia. apply Z.mod_small. lia. }
  rewrite DD, message_number by (try assumption; exact FI). rewrite <- DV. assert (V32 : v_data v < 2 ^ 32) by (destruct (zbool (a ms_msi_extended_message_data_capable)); lia).
  unfold pack_L. replace ((0 <=? v_data v) && (v_data v <? 2 ^ 32)) with true by lia. cbn [bind]. rewrite P3. apply send_ok; try assumption; [reflexivity|lia].
Qed.
End Top.
