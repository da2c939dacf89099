(** Routing of received TLPs in the UltraScale device models. *)
From Verif Require Import Base BaseProofs ModelUtils ModelTlp ModelAttrs ModelConfig ModelFunction ModelRoute ModelFrames ModelUs ModelUsDev
  SpecBar SpecRoute SpecUsRoute ProofsBar ProofsRoute.
From Coq Require Import Lia.

Lemma first_bar_spec io a : forall fns ls, Forall2 (fun p l => bars (fst p) (snd p) l (TAddr io a)) fns ls ->
  exists x, first_bar io a fns = Ok x /\
  match x with
  | Some (f, i) => exists j n l k m base, nth_error fns j = Some (f, n) /\ nth_error ls j = Some l /\ In (i, k, m, base) (windows 0 l) /\
      is_io k = io /\ base <= a < base + 2 ^ m /\ unclaimed io a (firstn j ls)
  | None => unclaimed io a ls
  end.
Proof.
  induction 1 as [|[f n] l fns ls B F IH]; [exists None; split; [reflexivity|constructor]|].
  cbn [first_bar fst snd] in *. destruct B as (L & T & A & SM & R). pose proof (decode n a io (f_attr f) l L T A SM R) as D.
  destruct (match_bar n a io (f_attr f)) as [[[i off]|]|]; cbn [bind]; [| |contradiction].
  - destruct D as (k & m & base & I & K & W & _). exists (Some (f, i)). split; [reflexivity|].
    exists 0%nat, n, l, k, m, base. repeat (split; [first [reflexivity|assumption]|]). constructor.
  - assert (U : Forall (fun w => hits a io w = false) (windows 0 l)).
    { apply Forall_forall. intros w I. apply not_true_iff_false. intros H. apply hits_true in H as [H1 H2]. exact (D w I H1 H2). }
    destruct IH as (x & E & X). exists x. split; [exact E|]. destruct x as [[f' i]|].
    + destruct X as (j & n' & l' & k & m & base & X1 & X2 & X3 & X4 & X5 & X6). exists (S j), n', l', k, m, base.
      repeat (split; [first [reflexivity|assumption]|]). constructor; assumption.
    + constructor; assumption.
Qed.

Lemma bit_length_ones m : 0 <= m -> bit_length (2 ^ m - 1) = m.
Proof.
  intros M. unfold bit_length. destruct (Z.eqb_spec (2 ^ m - 1) 0) as [E|E].
  - destruct (Z.eq_dec m 0); [auto|]. assert (2 ^ 1 <= 2 ^ m) by (apply Z.pow_le_mono_r; lia). lia.
  - assert (0 < m) by (destruct (Z.eq_dec m 0); [subst; cbn in E; lia|lia]).
    rewrite (Z.log2_unique (2 ^ m - 1) (m - 1)); [lia|lia|]. replace (Z.succ (m - 1)) with m by lia.
    assert (2 ^ m = 2 * 2 ^ (m - 1)) by (rewrite <- Z.pow_succ_r by lia; f_equal; lia).
    assert (0 < 2 ^ (m - 1)) by (apply Z.pow_pos_nonneg; lia). lia.
Qed.
Lemma lnot_window w m : 0 <= m <= w -> Z.land (Z.lnot (2 ^ w - 2 ^ m)) (2 ^ w - 1) = 2 ^ m - 1.
Proof.
  intros M. assert (P : 2 ^ m <= 2 ^ w) by (apply Z.pow_le_mono_r; lia). assert (0 < 2 ^ m) by (apply Z.pow_pos_nonneg; lia).
  replace (2 ^ w - 1) with (Z.ones w) by (rewrite Z.ones_equiv; lia). rewrite Z.land_ones by lia.
  unfold Z.lnot. replace (Z.pred (- (2 ^ w - 2 ^ m))) with (2 ^ m - 1 + (-1) * 2 ^ w) by lia. rewrite Z.mod_add by lia. apply Z.mod_small. lia.
Qed.
Lemma windows_at s i l : forall j k m base, laid_out s i l -> In (j, k, m, base) (windows i l) -> bar_at s j k m base.
Proof.
  revert i. induction l as [|[[[k' m'] b']|] l IH]; cbn [windows laid_out]; intros i j k m base L I.
  - destruct I.
  - destruct L as [B L]. destruct I as [E|I]; [injection E as <- <- <- <-; exact B|eauto].
  - destruct L as (_ & _ & L). eauto.
Qed.
Lemma aperture_spec f i k m base : bar_at (f_attr f) i k m base -> m < 32 ->
  (if negb (is_io k) && zbool (Z.land (f_attr f (fn_bar i)) 4) then aperture64 f i else aperture32 f i) = m.
Proof.
  intros (S1 & [B1 B2] & C) M. unfold size_ok in S1.
  assert (P4 : forall x, Z.land x 4 = if Z.testbit x 2 then 4 else 0).
  { intros x. apply Z.bits_inj'. intros n Hn. rewrite Z.land_spec. change 4 with (2 ^ 2). rewrite Z.pow2_bits_eqb by lia.
    destruct (Z.eqb_spec 2 n) as [<-|Q]; [destruct (Z.testbit x 2); reflexivity|]. rewrite andb_false_r.
    destruct (Z.testbit x 2); [now rewrite Z.pow2_bits_eqb, (proj2 (Z.eqb_neq 2 n)) by lia|now rewrite Z.bits_0]. }
  assert (T : forall x t, 4 <= m -> x mod 2 ^ m = 0 -> 0 <= t < 16 -> Z.testbit (x + t) 2 = Z.testbit t 2).
  { intros x t Hm X Ht. assert (E : x mod 2 ^ 4 = 0).
    { rewrite (Z.div_mod x (2 ^ m)) by (apply Z.pow_nonzero; lia). rewrite X, Z.add_0_r. replace m with ((m - 4) + 4) at 1 by lia.
      rewrite Z.pow_add_r by lia. rewrite Z.mul_comm, Z.mul_assoc. apply Z.mod_mul. lia. }
    rewrite <- (Z.mod_pow2_bits_low (x + t) 4 2) by lia. rewrite Z.add_mod, E, Z.add_0_l by lia. rewrite Z.mod_mod by lia. f_equal. apply Z.mod_small. lia. }
  destruct k as [|[|] pf]; cbn [is_io is_wide bwidth negb andb] in *.
  - destruct C as [_ C]. unfold aperture32, bar_mask_of. rewrite C. unfold size_mask. cbn [bwidth is_wide]. change 0xffffffff with (2 ^ 32 - 1).
    rewrite lnot_window by lia. apply bit_length_ones. lia.
  - destruct C as (C1 & C2 & C3 & C4). rewrite P4, C1.
    assert (BT : Z.testbit (content (BMem true pf) base mod 2 ^ 32) 2 = true).
    { rewrite Z.mod_pow2_bits_low by lia. unfold content. rewrite T by (first [lia|assumption|destruct pf; cbn; lia]). destruct pf; reflexivity. }
    rewrite BT. cbn [zbool negb Z.eqb]. unfold aperture64, bar_mask_of. rewrite C3, C4. unfold size_mask. cbn [bwidth is_wide].
    set (x := 2 ^ 64 - 2 ^ m). assert (X : Z.lor (x mod 2 ^ 32) (Z.shiftl (x / 2 ^ 32) 32) = x).
    { apply Z.bits_inj'. intros n Hn. rewrite Z.lor_spec, Z.shiftl_spec by lia. destruct (Z.ltb_spec n 32).
      - rewrite Z.mod_pow2_bits_low by lia. rewrite (Z.testbit_neg_r _ (n - 32)) by lia. now rewrite orb_false_r.
      - rewrite Z.mod_pow2_bits_high by lia. rewrite Z.div_pow2_bits by lia. rewrite orb_false_l. f_equal. lia. }
    rewrite X. unfold x. change 0xffffffffffffffff with (2 ^ 64 - 1). rewrite lnot_window by lia. apply bit_length_ones. lia.
  - destruct C as [C1 C]. rewrite P4, C1.
    assert (BT : Z.testbit (content (BMem false pf) base) 2 = false).
    { unfold content. rewrite T by (first [lia|assumption|destruct pf; cbn; lia]). destruct pf; reflexivity. }
    rewrite BT. cbn [zbool negb Z.eqb]. unfold aperture32, bar_mask_of. rewrite C. unfold size_mask. cbn [bwidth is_wide]. change 0xffffffff with (2 ^ 32 - 1).
    rewrite lnot_window by lia. apply bit_length_ones. lia.
Qed.

Lemma us_request co en t ty io d ls : fmt_type t = Ok ty -> route_of ty t = TAddr io (address t) ->
  Forall2 (fun p l => bars (fst p) (snd p) l (TAddr io (address t))) (d_fns d) ls ->
  exists act, us_upstream_recv co en t d = Ok (d, act) /\
  match act with
  | VReq u => exists j f n l k m base cid, nth_error (d_fns d) j = Some (f, n) /\ nth_error ls j = Some l /\
      In (bar_id u, k, m, base) (windows 0 l) /\ is_io k = io /\ base <= address t < base + 2 ^ m /\ unclaimed io (address t) (firstn j ls) /\
      (j = 0%nat -> bar_aperture u = m) /\ u_tlp u = set_completer_id cid (tlp_copy t) /\
      cid = (if Bool.eqb io (co_plus co) then mkId (d_bus d) (device (completer_id t)) (func (completer_id t)) else f_id f)
  | VDrop => (ty = MEM_WRITE \/ ty = MEM_WRITE_64) /\ unclaimed io (address t) ls
  | VAnswer c => ty <> MEM_WRITE /\ ty <> MEM_WRITE_64 /\ unclaimed io (address t) ls /\ is_answer UR c t (mkId (d_bus d) 0 0)
  | _ => False
  end.
Proof.
  intros T R F. destruct (first_bar_spec io (address t) _ _ F) as (x & E & X). unfold us_upstream_recv. rewrite T. cbn [bind].
  destruct x as [[f i]|].
  - destruct X as (j & n & l & k & m & base & X1 & X2 & X3 & X4 & X5 & X6).
    destruct (d_fns d) as [|[f0 n0] fns] eqn:DF; [destruct j; discriminate|].
    set (a := if negb io && zbool (Z.land (f_attr f0 (fn_bar i)) 4) then aperture64 f0 i else aperture32 f0 i).
    set (cid := if Bool.eqb io (co_plus co) then mkId (d_bus d) (device (completer_id t)) (func (completer_id t)) else f_id f).
    assert (A : j = 0%nat -> a = m).
    { intros ->. cbn in X1, X2. injection X1 as <- <-. destruct ls as [|l0 ls]; [discriminate|]. cbn in X2. injection X2 as <-.
      inversion F as [|p q r s B F' E1 E2]; subst. destruct B as (L & _ & _ & S & _). cbn [fst] in L. unfold a.
      apply (aperture_spec f0 i k m base); [eapply windows_at; eauto|]. rewrite Forall_forall in S. exact (S _ X3). }
    exists (VReq (with_bar i a cid t)). split.
    + unfold a, cid. destruct ty; cbn [route_of] in R; try discriminate; injection R as <-; rewrite E; reflexivity.
    + exists j, f, n, l, k, m, base, cid. cbn. repeat (split; [first [assumption|reflexivity]|]). reflexivity.
  - destruct ty; cbn [route_of] in R; try discriminate; injection R as <-; rewrite E; cbn [bind];
      unfold answer_with; rewrite ?ur_check; cbn [bind py_assert]; eexists; (split; [reflexivity|]); cbn; auto;
      repeat (split; [first [discriminate|assumption]|]); repeat split.
Qed.

Lemma by_id_spec i : forall l k, match by_id k i l with
  | Some m => exists j x, m = (k + j)%nat /\ nth_error l j = Some x /\ id_eqb (f_id (fst x)) i = true /\ Forall (fun x => id_eqb (f_id (fst x)) i = false) (firstn j l)
  | None => Forall (fun x => id_eqb (f_id (fst x)) i = false) l
  end.
Proof.
  induction l as [|[f n] l IH]; intros k; cbn [by_id]; [constructor|]. destruct (id_eqb (f_id f) i) eqn:E.
  - exists 0%nat, (f, n). split; [lia|]. split; [reflexivity|]. split; [exact E|constructor].
  - specialize (IH (S k)). destruct (by_id (S k) i l) as [m|].
    + destruct IH as (j & x & -> & X1 & X2 & X3). exists (S j), x. split; [lia|]. split; [exact X1|]. split; [exact X2|]. constructor; assumption.
    + constructor; assumption.
Qed.
Lemma us_config co t ty d : fmt_type t = Ok ty -> (ty = CFG_READ_0 \/ ty = CFG_WRITE_0) -> 0 <= bus (completer_id t) < 256 ->
  Forall (fun p => bus (f_id (fst p)) = d_bus d) (d_fns d) ->
  exists d' act, us_upstream_recv co true t d = Ok (d', act) /\ d_bus d' = bus (completer_id t) /\
  Forall2 (fun p p' => snd p' = snd p /\ fst p' = with_id (mkId (bus (completer_id t)) (device (f_id (fst p))) (func (f_id (fst p)))) (fst p)) (d_fns d) (d_fns d') /\
  match act with
  | VFn k => (exists p, nth_error (d_fns d) k = Some p /\ addressed_fn t p = true) /\ Forall (fun p => addressed_fn t p = false) (firstn k (d_fns d))
  | VAnswer c => Forall (fun p => addressed_fn t p = false) (d_fns d) /\ is_answer UR c t (mkId (bus (completer_id t)) 0 0)
  | _ => False
  end.
Proof.
  intros T Y B F. set (b := bus (completer_id t)) in *.
  set (g := fun x : fnc * Z => (with_id (mkId b (device (f_id (fst x))) (func (f_id (fst x)))) (fst x), snd x)).
  assert (X : set_bus b d = Ok (mkDev b (map g (d_fns d)))).
  { unfold set_bus. replace ((b <? 0) || (b >? 255)) with false by lia. destruct (Z.eqb_spec (d_bus d) b) as [E|_]; [|reflexivity].
    f_equal. destruct d as [db fns]. cbn in *. subst db. f_equal. induction fns as [|[f n] fns IH]; [reflexivity|]. inversion F; subst. cbn [map]. f_equal; [|auto].
    unfold g. cbn [fst snd]. f_equal. destruct f as [at_ hp cp ec [ib id ifn]]. cbn in *. subst ib. reflexivity. }
  assert (A : forall p, id_eqb (f_id (fst (g p))) (completer_id t) = addressed_fn t p).
  { intros p. unfold g, addressed_fn, id_eqb. cbn. fold b. now rewrite Z.eqb_refl. }
  assert (AA : forall l, Forall (fun x => id_eqb (f_id (fst x)) (completer_id t) = false) (map g l) -> Forall (fun p => addressed_fn t p = false) l).
  { intros l H. rewrite Forall_map in H. revert H. apply Forall_impl. intros p H. now rewrite <- A. }
  exists (mkDev b (map g (d_fns d))). pose proof (by_id_spec (completer_id t) (map g (d_fns d)) 0) as S.
  assert (F2 : Forall2 (fun p p' => snd p' = snd p /\ fst p' = with_id (mkId b (device (f_id (fst p))) (func (f_id (fst p)))) (fst p)) (d_fns d) (map g (d_fns d))).
  { clear. induction (d_fns d) as [|p l IH]; cbn [map]; constructor; [split; reflexivity|exact IH]. }
  unfold us_upstream_recv. rewrite T. cbn [bind]. destruct (by_id 0 (completer_id t) (map g (d_fns d))) as [m|] eqn:M.
  - exists (VFn m). destruct S as (j & x & E & S1 & S2 & S3). cbn in E. subst m. split.
    { destruct Y as [->| ->]; cbn [negb]; fold b; rewrite X; cbn [bind d_fns]; rewrite M; reflexivity. }
    split; [reflexivity|]. split; [exact F2|]. rewrite nth_error_map in S1. destruct (nth_error (d_fns d) j) as [p|] eqn:P; [|discriminate]. cbn in S1. injection S1 as <-.
    split; [exists p; split; [reflexivity|now rewrite <- A]|]. rewrite firstn_map in S3. now apply AA.
  - exists (VAnswer (create_ur_completion t (mkId b 0 0))). split.
    { destruct Y as [->| ->]; cbn [negb]; fold b; rewrite X; cbn [bind d_fns]; rewrite M; reflexivity. }
    split; [reflexivity|]. split; [exact F2|]. split; [now apply AA|repeat split].
Qed.
Lemma us_disabled co t ty d : fmt_type t = Ok ty -> (ty = CFG_READ_0 \/ ty = CFG_WRITE_0) ->
  exists c, us_upstream_recv co false t d = Ok (d, VAnswer c) /\ is_answer CRS c t (mkId (d_bus d) 0 0).
Proof.
  intros T Y. exists (create_crs_completion t (mkId (d_bus d) 0 0)). unfold us_upstream_recv. rewrite T. split; [destruct Y as [->| ->]; reflexivity|repeat split].
Qed.
Lemma us_type1 co en t ty d : fmt_type t = Ok ty -> (ty = CFG_READ_1 \/ ty = CFG_WRITE_1) ->
  exists c, us_upstream_recv co en t d = Ok (d, VAnswer c) /\ is_answer UR c t (mkId (d_bus d) 0 0).
Proof.
  intros T Y. exists (create_ur_completion t (mkId (d_bus d) 0 0)). unfold us_upstream_recv. rewrite T. split; [destruct Y as [->| ->]; reflexivity|repeat split].
Qed.
Lemma us_completion co en t ty d : fmt_type t = Ok ty -> (ty = CPL \/ ty = CPL_DATA \/ ty = CPL_LOCKED \/ ty = CPL_LOCKED_DATA) ->
  us_upstream_recv co en t d = Ok (d, if existsb (fun p => id_eqb (f_id (fst p)) (requester_id t)) (d_fns d) then VCpl else VDrop).
Proof.
  intros T Y. unfold us_upstream_recv. rewrite T. cbn [bind]. pose proof (by_id_spec (requester_id t) (d_fns d) 0) as S.
  assert (X : match by_id 0 (requester_id t) (d_fns d) with Some _ => Ok (d, VCpl) | None => Ok (d, VDrop) end =
    Ok (d, if existsb (fun p => id_eqb (f_id (fst p)) (requester_id t)) (d_fns d) then VCpl else VDrop)).
  { destruct (by_id 0 (requester_id t) (d_fns d)) as [m|].
    - destruct S as (j & x & _ & S1 & S2 & _). replace (existsb _ _) with true; [reflexivity|]. symmetry. apply existsb_exists. exists x.
      split; [eapply nth_error_In; eauto|exact S2].
    - replace (existsb _ _) with false; [reflexivity|]. symmetry. apply not_true_iff_false. intros E. apply existsb_exists in E as (x & I & E).
      rewrite Forall_forall in S. specialize (S x I). cbn in S. congruence. }
  destruct Y as [->|[->|[->| ->]]]; exact X.
Qed.
