(** Connection of two ports. *)
From Coq Require Import QArith Qround Qfield.
From Verif Require Import Base BaseProofs ModelVendorFn ModelLink SpecLink.
Open Scope Z_scope.

Lemma negotiate_agreed a b : (forall x, a = Some x -> 0 <= x) -> (forall x, b = Some x -> 0 <= x) -> agreed a b (negotiate a b).
Proof.
  unfold agreed, restricts, negotiate, zbool. intros A B.
  destruct a as [x|], b as [y|]; try specialize (A _ eq_refl); try specialize (B _ eq_refl); repeat match goal with |- context [?z =? 0] => destruct (Z.eqb_spec z 0) end; cbn [negb];
    (split; [intros z [[E N]|[E N]]; try discriminate E; injection E as <-; try congruence; eexists; (split; [reflexivity|lia])|]); intros z E N; try discriminate E; injection E as <-; try congruence;
    try (destruct (Z.min_spec x y) as [[_ E]|[_ E]]; rewrite E in *); solve [left; split; [reflexivity|assumption]|right; split; [reflexivity|assumption]].
Qed.
Lemma negotiate_comm a b : (forall x, a = Some x -> 1 <= x) -> (forall x, b = Some x -> 1 <= x) -> negotiate a b = negotiate b a.
Proof.
  unfold negotiate, zbool. intros A B.
  destruct a as [x|], b as [y|]; try specialize (A _ eq_refl); try specialize (B _ eq_refl);
    repeat match goal with |- context [?z =? 0] => replace (z =? 0) with false by lia end; cbn [negb]; try reflexivity. rewrite Z.min_comm. reflexivity.
Qed.
Lemma negotiate_range a b lo hi : (forall x, a = Some x -> lo <= x <= hi) -> (forall x, b = Some x -> lo <= x <= hi) -> forall x, negotiate a b = Some x -> lo <= x <= hi.
Proof.
  unfold negotiate. intros A B x. destruct a as [y|]; [destruct (zbool y); [destruct b as [z|]; [destruct (zbool z)|]|]|]; intros E; auto.
  injection E as <-. specialize (A y eq_refl). specialize (B z eq_refl). lia.
Qed.
Lemma negotiate_pos a b : (forall x, a = Some x -> 1 <= x) -> (forall x, b = Some x -> 1 <= x) -> forall x, negotiate a b = Some x -> 1 <= x.
Proof.
  unfold negotiate. intros A B x. destruct a as [y|]; [destruct (zbool y); [destruct b as [z|]; [destruct (zbool z)|]|]|]; intros E; auto.
  injection E as <-. specialize (A y eq_refl). specialize (B z eq_refl). lia.
Qed.
(** The rates. *)
Definition lane_rate (g : Z) : Q := Qdiv (inject_Z (transfers g * fst (code g))) (inject_Z (snd (code g))).
Lemma gen_rate_ok g : 1 <= g <= 5 -> exists r, gen_rate g = Some r /\ Qeq r (lane_rate g) /\ Qlt (inject_Z 0) r.
Proof.
  intros H. assert (C : g = 1 \/ g = 2 \/ g = 3 \/ g = 4 \/ g = 5) by lia.
  destruct C as [->|[->|[->|[->| ->]]]]; (eexists; split; [reflexivity|]; split; vm_compute; reflexivity).
Qed.
Lemma qtrunc_nonneg x : Qle (inject_Z 0) x -> qtrunc x = Qfloor x.
Proof. intros H. unfold qtrunc. apply Qle_bool_iff in H. rewrite H. reflexivity. Qed.
Lemma qtrunc_comp x y : Qeq x y -> qtrunc x = qtrunc y.
Proof.
  intros E. unfold qtrunc. assert (B : Qle_bool (inject_Z 0) x = Qle_bool (inject_Z 0) y).
  { apply eq_true_iff_eq. rewrite !Qle_bool_iff, E. reflexivity. }
  rewrite B. destruct (Qle_bool (inject_Z 0) y); [apply Qfloor_comp, E|]. f_equal. apply Qfloor_comp. rewrite E. reflexivity.
Qed.

Definition port_ok (p : sport) : Prop := (forall g, p_max_speed p = Some g -> 1 <= g <= 5) /\ (forall w, p_max_width p = Some w -> 1 <= w).
Lemma connect_int_ok ts i j h : p_other (h i) = None -> port_ok (h i) -> port_ok (h j) ->
  exists p, connect_int ts i j h = (pset i p h, Ok tt) /\ p_other p = Some j /\ p_max_speed p = p_max_speed (h i) /\ p_max_width p = p_max_width (h i) /\
    p_payload p = p_payload (h i) /\ p_port_delay p = p_port_delay (h i) /\
    p_cur_speed p = negotiate (p_max_speed (h i)) (p_max_speed (h j)) /\ p_cur_width p = negotiate (p_max_width (h i)) (p_max_width (h j)) /\
    match p_cur_speed p, p_cur_width p with
    | Some g, Some w => exists r, gen_rate g = Some r /\ 1 <= w /\ p_symbol p = Qdiv (inject_Z 8) (Qmult r (inject_Z w)) /\
        p_latency p = qtrunc (Qmult (Qdiv (Qmult (max_update_latency (p_payload p) w g) (inject_Z 8)) r) (inject_Z ts)) /\
        p_link_delay p = qtrunc (Qmult (Qplus (p_port_delay (h i)) (p_port_delay (h j))) (inject_Z ts))
    | _, _ => p_symbol p = inject_Z 0 /\ p_latency p = 0 /\ p_link_delay p = 0
    end.
Proof.
  intros O (A1 & A2) (B1 & B2). unfold connect_int. rewrite O.
  assert (NP := negotiate_pos (p_max_width (h i)) (p_max_width (h j)) A2 B2).
  assert (NR := negotiate_range (p_max_speed (h i)) (p_max_speed (h j)) 1 5 A1 B1).
  destruct (negotiate (p_max_width (h i)) (p_max_width (h j))) as [w|] eqn:EW; destruct (negotiate (p_max_speed (h i)) (p_max_speed (h j))) as [g|] eqn:EG.
  - specialize (NP w eq_refl). specialize (NR g eq_refl). destruct (gen_rate_ok g NR) as (r & R & _). rewrite R.
    replace (w =? 0) with false by lia. eexists. split; [reflexivity|]. cbn. repeat (split; [reflexivity|]). exists r. auto.
  - eexists. split; [reflexivity|]. cbn. auto 10.
  - eexists. split; [reflexivity|]. cbn. auto 10.
  - eexists. split; [reflexivity|]. cbn. auto 10.
Qed.
Lemma pset_eq i p h : pset i p h i = p.
Proof. unfold pset. rewrite Nat.eqb_refl. reflexivity. Qed.
Lemma pset_ne i p h k : k <> i -> pset i p h k = h k.
Proof. intros N. unfold pset. apply Nat.eqb_neq in N. rewrite N. reflexivity. Qed.

Lemma connect_ok ts i j h : i <> j -> p_other (h i) = None -> p_other (h j) = None -> port_ok (h i) -> port_ok (h j) ->
  exists h', connect ts i j h = (h', Ok tt) /\ (forall k, k <> i -> k <> j -> h' k = h k) /\ p_other (h' i) = Some j /\ p_other (h' j) = Some i /\
    agreed (p_max_speed (h i)) (p_max_speed (h j)) (p_cur_speed (h' i)) /\ p_cur_speed (h' j) = p_cur_speed (h' i) /\
    agreed (p_max_width (h i)) (p_max_width (h j)) (p_cur_width (h' i)) /\ p_cur_width (h' j) = p_cur_width (h' i) /\
    p_link_delay (h' j) = p_link_delay (h' i) /\
    (forall k, k = i \/ k = j -> p_payload (h' k) = p_payload (h k) /\
      match p_cur_speed (h' i), p_cur_width (h' i) with
      | Some g, Some w => 1 <= g <= 5 /\ 1 <= w /\ exists r, Qeq r (lane_rate g) /\ Qlt (inject_Z 0) r /\
          p_symbol (h' k) = Qdiv (inject_Z 8) (Qmult r (inject_Z w)) /\
          p_latency (h' k) = qtrunc (Qmult (Qdiv (Qmult (max_update_latency (p_payload (h k)) w g) (inject_Z 8)) r) (inject_Z ts))
      | _, _ => p_symbol (h' k) = inject_Z 0 /\ p_latency (h' k) = 0
      end).
Proof.
  intros N Oi Oj Pi Pj. unfold connect. rewrite Oi.
  destruct (connect_int_ok ts j i h Oj Pj Pi) as (pj & -> & J1 & J2 & J3 & J4 & J5 & J6 & J7 & J8).
  assert (Ei : pset j pj h i = h i) by (apply pset_ne; exact N).
  assert (Ej : pset j pj h j = pj) by apply pset_eq.
  assert (Pj' : port_ok pj) by (unfold port_ok in *; rewrite J2, J3; exact Pj).
  destruct (connect_int_ok ts i j (pset j pj h)) as (p & -> & I1 & I2 & I3 & I4 & I5 & I6 & I7 & I8).
  { rewrite Ei. exact Oi. } { rewrite Ei. exact Pi. } { rewrite Ej. exact Pj'. }
  rewrite Ei, Ej in *. rewrite ?J2, ?J3, ?J5 in *.
  assert (Hi : pset i p (pset j pj h) i = p) by apply pset_eq.
  assert (Hj : pset i p (pset j pj h) j = pj) by (rewrite pset_ne by congruence; exact Ej).
  assert (CS : p_cur_speed pj = p_cur_speed p).
  { rewrite I6, J6. apply negotiate_comm; intros x X; [apply (proj1 Pj) in X|apply (proj1 Pi) in X]; lia. }
  assert (CW : p_cur_width pj = p_cur_width p) by (rewrite I7, J7; apply negotiate_comm; [exact (proj2 Pj)|exact (proj2 Pi)]).
  eexists. split; [reflexivity|]. rewrite Hi, Hj. split; [intros k K1 K2; rewrite !pset_ne by assumption; reflexivity|].
  split; [exact I1|]. split; [exact J1|].
  split; [rewrite I6; apply negotiate_agreed; intros x X; [apply (proj1 Pi) in X|apply (proj1 Pj) in X]; lia|]. split; [exact CS|].
  split; [rewrite I7; apply negotiate_agreed; intros x X; [apply (proj2 Pi) in X|apply (proj2 Pj) in X]; lia|]. split; [exact CW|].
  rewrite CS, CW in J8.
  assert (NR : forall g, p_cur_speed p = Some g -> 1 <= g <= 5) by (rewrite I6; apply negotiate_range; [exact (proj1 Pi)|exact (proj1 Pj)]).
  split.
  - destruct (p_cur_speed p) as [g|], (p_cur_width p) as [w|].
    + destruct I8 as (r & _ & _ & _ & _ & ->), J8 as (r' & _ & _ & _ & _ & ->). apply qtrunc_comp. rewrite (Qplus_comm (p_port_delay (h j))). reflexivity.
    + destruct I8 as (_ & _ & ->), J8 as (_ & _ & ->). reflexivity.
    + destruct I8 as (_ & _ & ->), J8 as (_ & _ & ->). reflexivity.
    + destruct I8 as (_ & _ & ->), J8 as (_ & _ & ->). reflexivity.
  - intros k K. assert (X : pset i p (pset j pj h) k = match Nat.eq_dec k i with left _ => p | right _ => pj end).
    { destruct (Nat.eq_dec k i) as [->|]; [exact Hi|]. destruct K as [->| ->]; [congruence|exact Hj]. }
    rewrite X. destruct (Nat.eq_dec k i) as [->|NK].
    + split; [exact I4|]. rewrite <- I4. destruct (p_cur_speed p) as [g|] eqn:G; [|destruct I8 as (? & ? & _); split; assumption].
      destruct (p_cur_width p) as [w|]; [|destruct I8 as (? & ? & _); split; assumption].
      destruct I8 as (r & R1 & R2 & R3 & R4 & _). specialize (NR g eq_refl). destruct (gen_rate_ok g NR) as (r' & E1 & E2 & E3).
      assert (r' = r) as -> by congruence. split; [exact NR|]. split; [exact R2|]. exists r. auto.
    + destruct K as [->| ->]; [congruence|]. split; [exact J4|]. rewrite <- J4. destruct (p_cur_speed p) as [g|] eqn:G; [|destruct J8 as (? & ? & _); split; assumption].
      destruct (p_cur_width p) as [w|]; [|destruct J8 as (? & ? & _); split; assumption].
      destruct J8 as (r & R1 & R2 & R3 & R4 & _). specialize (NR g eq_refl). destruct (gen_rate_ok g NR) as (r' & E1 & E2 & E3).
      assert (r' = r) as -> by congruence. split; [exact NR|]. split; [exact R2|]. exists r. auto.
Qed.
Lemma connect_refused ts i j h : i <> j -> p_other (h i) <> None \/ p_other (h j) <> None -> connect ts i j h = (h, Err PyException).
Proof.
  intros N H. unfold connect. destruct (p_other (h i)) as [x|] eqn:E; [reflexivity|]. destruct H as [H|H]; [congruence|].
  unfold connect_int. destruct (p_other (h j)); [reflexivity|congruence].
Qed.

(** ** Times *)
Lemma floor_bounds x : Qle (inject_Z (Qfloor x)) x /\ Qlt x (inject_Z (Qfloor x + 1)).
Proof. split; [apply Qfloor_le|apply Qlt_floor]. Qed.
Lemma Qfloor_nonneg x : Qle (inject_Z 0) x -> 0 <= Qfloor x.
Proof. intros H. change 0 with (Qfloor (inject_Z 0)). apply Qfloor_resp_le. exact H. Qed.
Lemma steps_bounds x : Qle (inject_Z 0) x -> let t := Z.max (qtrunc x) 1 in (t = 1 \/ Qle (inject_Z t) x) /\ Qlt x (inject_Z (t + 1)).
Proof.
  intros H t. unfold t. rewrite (qtrunc_nonneg _ H). destruct (floor_bounds x) as (B1 & B2). pose proof (Qfloor_nonneg x H) as P. split.
  - destruct (Z.eq_dec (Qfloor x) 0) as [->|]; [left; reflexivity|]. right. rewrite Z.max_l by lia. exact B1.
  - eapply Qlt_le_trans; [exact B2|]. rewrite <- Zle_Qle. lia.
Qed.
Lemma symbol_time r w n ts : 1 <= w -> Qlt (inject_Z 0) r -> Qeq (Qmult (Qmult (inject_Z n) (Qdiv (inject_Z 8) (Qmult r (inject_Z w)))) (inject_Z ts))
  (Qdiv (inject_Z (8 * n * ts)) (Qmult r (inject_Z w))).
Proof.
  intros W R. assert (W0 : ~ Qeq (inject_Z w) (inject_Z 0)) by (unfold Qeq, inject_Z; cbn; lia).
  assert (R0 : ~ Qeq r (inject_Z 0)) by (intros E; rewrite E in R; exact (Qlt_irrefl _ R)).
  rewrite !inject_Z_mult. change (inject_Z 0) with 0%Q in *. field. split; assumption.
Qed.
Lemma latency_entry mps row k w e g : In (mps, row) latency_table -> nth_error latency_widths k = Some w -> nth_error row k = Some e -> 1 <= g <= 5 ->
  Qfloor (max_update_latency mps w g) = e + latency_more g.
Proof.
  intros R W E G. assert (C : g = 1 \/ g = 2 \/ g = 3 \/ g = 4 \/ g = 5) by lia.
  do 7 (destruct k as [|k]; [cbn in W; injection W as <-; cbn in R;
    repeat (destruct R as [R|R]; [injection R as <- <-; cbn in E; injection E as <-;
      destruct C as [->|[->|[->|[->| ->]]]]; vm_compute; reflexivity|]); destruct R|]).
  cbn in W. destruct k; discriminate W.
Qed.
Lemma latency_nonneg mps row w g : In (mps, row) latency_table -> 1 <= w -> Qle (inject_Z 0) (max_update_latency mps w g).
Proof.
  intros R W. unfold max_update_latency. cbv zeta. change (inject_Z 0) with (0 + 0)%Q. apply Qplus_le_compat.
  - apply Qle_shift_div_l; [change 0%Q with (inject_Z 0); rewrite <- Zlt_Qlt; lia|]. rewrite Qmult_0_l.
    apply Qmult_le_0_compat.
    + change 0%Q with (inject_Z 0). rewrite <- Zle_Qle. cbn in R. repeat (destruct R as [R|R]; [injection R as <- _; lia|]). destruct R.
    + unfold update_factor. destruct (mps <=? 256), (w <=? 4), (w =? 8), (w <=? 8); discriminate.
  - change 0%Q with (inject_Z 0). rewrite <- Zle_Qle. destruct (g =? 1), (g =? 2); lia.
Qed.
Lemma latency_steps l r ts : Qlt (inject_Z 0) r -> Qeq (Qmult (Qdiv (Qmult l (inject_Z 8)) r) (inject_Z ts)) (Qdiv (Qmult l (inject_Z (8 * ts))) r).
Proof.
  intros R. assert (R0 : ~ Qeq r (inject_Z 0)) by (intros E; rewrite E in R; exact (Qlt_irrefl _ R)).
  rewrite inject_Z_mult. change (inject_Z 0) with 0%Q in *. field. exact R0.
Qed.
Lemma latency_pos l r ts : Qle (inject_Z 0) l -> Qlt (inject_Z 0) r -> 0 <= ts -> Qle (inject_Z 0) (Qdiv (Qmult l (inject_Z (8 * ts))) r).
Proof.
  intros L R T. apply Qle_shift_div_l; [exact R|]. change (inject_Z 0) with 0%Q in *. rewrite Qmult_0_l. apply Qmult_le_0_compat; [exact L|].
  change 0%Q with (inject_Z 0). rewrite <- Zle_Qle. lia.
Qed.
