From Verif Require Import Base BaseProofs ModelUtils SpecUtils ProofsUtils ModelEnum ModelAssign SpecAssign.

Definition le_lims (l l' : lims) : Prop := forall k, lim k l <= lim k l'.
Definition granular (l : lims) : Prop := forall k, (granule k | lim k l).

(** Allocations in order, from the limits [l] to [l'] *)
Inductive chain : lims -> list alloc -> lims -> Prop :=
| chain_nil l : chain l [] l
| chain_cons l a r l' :
    lim (a_kind a) l <= a_addr a < lim (a_kind a) l + a_size a -> (a_size a | a_addr a) -> 0 < a_size a ->
    (0 <= a_addr a < 2 ^ 64 -> register a / a_size a * a_size a = a_addr a) ->
    chain (put_lim (a_kind a) (a_addr a + a_size a) l) r l' -> chain l (a :: r) l'.

(** The tree; [G]: the bases of all bridges are multiples of the granules. *)
Inductive laid (G : Prop) : lims -> list adev -> lims -> Prop :=
| laid_nil l : laid G l [] l
| laid_leaf l p own l1 r l2 : chain l own l1 -> laid G l1 r l2 -> laid G l (ADev p own None :: r) l2
| laid_bridge l p own l1 kids l2 regs r l3 :
    chain l own l1 -> laid G l1 kids l2 -> (G -> granular l1) -> setup_bridge l1 (less1 (round l2)) = Ok regs -> laid G (round l2) r l3 ->
    laid G l (ADev p own (Some (regs, kids)) :: r) l3.

Lemma lim_put k k' v l : lim k (put_lim k' v l) = if kind_eqb k k' then v else lim k l.
Proof. now destruct k, k'. Qed.
Lemma kind_eqb_eq a b : kind_eqb a b = true <-> a = b.
Proof. destruct a, b; cbn; split; congruence. Qed.
Lemma le_refl l : le_lims l l.
Proof. intros k; lia. Qed.
Lemma le_trans a b c : le_lims a b -> le_lims b c -> le_lims a c.
Proof. intros H1 H2 k; specialize (H1 k); specialize (H2 k); lia. Qed.

(** Alignment *)
Lemma align_bounds v n : 0 <= n -> v <= align v (2 ^ n - 1) < v + 2 ^ n /\ (2 ^ n | align v (2 ^ n - 1)).
Proof.
  intros Hn. destruct (align_spec v n Hn) as (D & H1 & H2). pose proof (Z.pow_pos_nonneg 2 n ltac:(lia) Hn).
  repeat split; auto; try lia.
  destruct D as [q Eq]. destruct (Z_lt_le_dec (align v (2 ^ n - 1)) (v + 2 ^ n)); auto.
  assert (align v (2 ^ n - 1) <= align v (2 ^ n - 1) - 2 ^ n). { apply H2. - exists (q - 1); lia. - lia. }
  lia.
Qed.
Lemma lim_round k l : lim k (round l) = align (lim k l) (granule k - 1).
Proof. now destruct k. Qed.
Lemma granule_pow k : exists n, 0 <= n /\ granule k = 2 ^ n.
Proof. destruct k; [exists 12 | exists 20 | exists 20]; split; try reflexivity; lia. Qed.
Lemma round_bounds k l : lim k l <= lim k (round l) < lim k l + granule k /\ (granule k | lim k (round l)).
Proof. rewrite lim_round. destruct (granule_pow k) as (n & Hn & ->). now apply align_bounds. Qed.
Lemma round_le l : le_lims l (round l).
Proof. intros k. pose proof (round_bounds k l); lia. Qed.
Lemma round_granular l : granular (round l).
Proof. intros k. apply round_bounds. Qed.

(** Registers *)
Lemma lor_low raw addr n m : 0 <= m <= n -> (2 ^ n | addr) -> 0 <= addr -> Z.lor (Z.land raw (Z.ones m)) addr = addr + raw mod 2 ^ m.
Proof.
  intros Hn [q ->] Ha. rewrite Z.land_ones by lia. rewrite Z.lor_comm, Z.add_comm.
  assert (0 <= raw mod 2 ^ m < 2 ^ n).
  { pose proof (Z.mod_pos_bound raw (2 ^ m) ltac:(apply Z.pow_pos_nonneg; lia)). pose proof (Z.pow_le_mono_r 2 m n ltac:(lia) ltac:(lia)). lia. }
  rewrite Z.add_comm. rewrite Z.add_nocarry_lxor, Z.lxor_lor; auto;
    apply Z.bits_inj'; intros i Hi; rewrite Z.land_spec, Z.bits_0; destruct (Z_lt_le_dec i n).
  - rewrite Z.mul_pow2_bits_low by lia. reflexivity.
  - rewrite Z.mod_pow2_bits_high by lia. apply Bool.andb_false_r.
  - rewrite Z.mul_pow2_bits_low by lia. reflexivity.
  - rewrite Z.mod_pow2_bits_high by lia. apply Bool.andb_false_r.
Qed.
Lemma keep_high raw addr n m : 0 <= m <= n -> (2 ^ n | addr) -> 0 <= addr ->
  Z.lor (Z.land raw (Z.ones m)) addr / 2 ^ n * 2 ^ n = addr.
Proof.
  intros Hn D Ha. rewrite (lor_low raw addr n m) by auto. destruct D as [q ->].
  assert (0 <= raw mod 2 ^ m < 2 ^ n).
  { pose proof (Z.mod_pos_bound raw (2 ^ m) ltac:(apply Z.pow_pos_nonneg; lia)). pose proof (Z.pow_le_mono_r 2 m n ltac:(lia) ltac:(lia)). lia. }
  rewrite Z.add_comm, Z.div_add by lia. rewrite Z.div_small by lia. lia.
Qed.
Lemma two_dwords v : Z.land v 0xffffffff + Z.land (Z.shiftr v 32) 0xffffffff * 2 ^ 32 = v mod 2 ^ 64.
Proof.
  change 0xffffffff with (Z.ones 32). rewrite !Z.land_ones, Z.shiftr_div_pow2 by lia.
  change (2 ^ 64) with (2 ^ 32 * 2 ^ 32). rewrite Z.rem_mul_r by lia. lia.
Qed.

Lemma dword_ok v d : dword v = Ok d -> d = v.
Proof. unfold dword. destruct (_ && _); congruence. Qed.

Lemma size_case low size : size_ok low size -> size <> 0 -> 0 <= low -> exists n, low <= n /\ size = 2 ^ n /\ 0 < size.
Proof.
  intros [->|(n & Hn & ->)] Hs Hl; [lia|]. exists n. repeat split; auto. apply Z.pow_pos_nonneg; lia.
Qed.
Lemma take_ok k size l addr l' n : take k size l = (addr, l') -> size = 2 ^ n -> 0 <= n ->
  lim k l <= addr < lim k l + size /\ (size | addr) /\ l' = put_lim k (addr + size) l.
Proof. unfold take. intros [= <- <-] -> Hn. pose proof (align_bounds (lim k l) n Hn) as [B D]. auto. Qed.

(** Bits *)
Lemma bit0 raw : Z.testbit raw 0 = Z.odd raw.
Proof. apply Z.bit0_odd. Qed.
Lemma bit_n raw n : 0 <= n -> Z.testbit raw n = Z.odd (raw / 2 ^ n).
Proof. intros H. rewrite <- Z.bit0_odd. rewrite Z.div_pow2_bits by lia. now rewrite Z.add_0_l. Qed.

Definition summary (a : alloc) : Z * kind * Z := (a_reg a, a_kind a, a_size a).

Lemma bars_chain n : forall bars reg l a l', (length bars <= n)%nat -> bars_ok bars ->
  assign_bars reg bars l = Ok (a, l') -> chain l a l' /\ map summary a = wanted reg bars.
Proof.
  induction n as [|n IH]; intros bars reg l a l' Hlen Hok H.
  { destruct bars; [|cbn in Hlen; lia]. cbn in H. apply Ok_inj in H; apply pair_equal_spec in H; destruct H as [<- <-]. split; [constructor|reflexivity]. }
  destruct bars as [|[raw size] rest].
  { cbn in H. apply Ok_inj in H; apply pair_equal_spec in H; destruct H as [<- <-]. split; [constructor|reflexivity]. }
  cbn [bars_ok] in Hok. destruct Hok as (Hraw & Hsz & Hrest). cbn [assign_bars wanted] in H |- *. cbn in Hlen.
  destruct (size =? 0) eqn:E0.
  { cbn [orb] in Hrest. apply IH in H; auto; lia. }
  cbn [orb] in Hrest. apply Z.eqb_neq in E0.
  unfold wide, bar_kind in *. rewrite bit0 in H. rewrite (bit_n raw 2), (bit_n raw 3) in H by lia.
  change (2 ^ 2) with 4 in H. change (2 ^ 3) with 8 in H.
  destruct (Z.odd raw) eqn:Eo; cbn [negb andb] in *.
  - destruct (size_case _ _ Hsz E0 ltac:(lia)) as (m & Hm & Em & Hpos).
    destruct (take Io size l) as [addr l1] eqn:Et. destruct (take_ok _ _ _ _ _ m Et Em ltac:(lia)) as (B & D & ->).
    destruct (dword _) as [d|] eqn:Ed; [|discriminate]. apply dword_ok in Ed. cbn [bind] in H.
    destruct (assign_bars _ _ _) as [[r l2]|] eqn:Er; [|discriminate]. cbn [bind] in H. apply Ok_inj in H; apply pair_equal_spec in H; destruct H as [<- <-].
    apply IH in Er; [|lia|auto]. destruct Er as [C W]. split.
    + constructor; cbn [a_kind a_addr a_size]; auto. intros Ha. unfold register; cbn [a_dws]. subst d size.
      apply (keep_high raw addr m 2); [lia|auto|lia].
    + cbn [map]. now rewrite W.
  - destruct (Z.odd (raw / 4)) eqn:E4; cbn [negb andb] in *.
    + destruct rest as [|[raw2 size2] rest]; [discriminate|].
      destruct (size_case _ _ Hsz E0 ltac:(lia)) as (m & Hm & Em & Hpos).
      set (k := if Z.odd (raw / 8) then Pref else Mem) in *.
      destruct (take k size l) as [addr l1] eqn:Et. destruct (take_ok _ _ _ _ _ m Et Em ltac:(lia)) as (B & D & ->).
      destruct (assign_bars _ _ _) as [[r l2]|] eqn:Er; [|discriminate]. cbn [bind] in H. apply Ok_inj in H; apply pair_equal_spec in H; destruct H as [<- <-]. cbn in Hlen.
      apply IH in Er; [|lia|auto]. destruct Er as [C W]. split.
      * constructor; cbn [a_kind a_addr a_size]; auto. intros Ha. unfold register; cbn [a_dws]. rewrite two_dwords. subst size.
        change 15 with (Z.ones 4). rewrite Z.mod_small. { apply (keep_high raw addr m 4); [lia|auto|lia]. }
        rewrite (lor_low raw addr m 4) by (auto; lia).
        pose proof (Z.mod_pos_bound raw (2 ^ 4) ltac:(lia)). split; [lia|].
        change (Z.ones 4) with 15 in *.
        assert (addr + 2 ^ m <= 2 ^ 64 \/ 64 < m) as [|Hbig].
        { destruct (Z_le_gt_dec m 64); [left|right; lia]. destruct D as [q ->].
          assert (2 ^ 64 = 2 ^ (64 - m) * 2 ^ m) as E by (rewrite <- Z.pow_add_r by lia; f_equal; lia).
          rewrite E in *. assert (q < 2 ^ (64 - m)) by nia. nia. }
        { pose proof (Z.pow_le_mono_r 2 4 m ltac:(lia) ltac:(lia)). lia. }
        { destruct D as [q Eq]. pose proof (Z.pow_lt_mono_r 2 64 m ltac:(lia) ltac:(lia) ltac:(lia)). assert (q = 0) by nia. subst q. lia. }
      * cbn [map]. rewrite W. reflexivity.
    + destruct (size_case _ _ Hsz E0 ltac:(lia)) as (m & Hm & Em & Hpos).
      destruct (take Mem size l) as [addr l1] eqn:Et. destruct (take_ok _ _ _ _ _ m Et Em ltac:(lia)) as (B & D & ->).
      destruct (dword _) as [d|] eqn:Ed; [|discriminate]. apply dword_ok in Ed. cbn [bind] in H.
      destruct (assign_bars _ _ _) as [[r l2]|] eqn:Er; [|discriminate]. cbn [bind] in H. apply Ok_inj in H; apply pair_equal_spec in H; destruct H as [<- <-].
      apply IH in Er; [|lia|auto]. destruct Er as [C W]. split.
      * constructor; cbn [a_kind a_addr a_size]; auto. intros Ha. unfold register; cbn [a_dws]. subst d size.
        apply (keep_high raw addr m 4); [lia|auto|lia].
      * cbn [map]. now rewrite W.
Qed.

Lemma chain_app l a l1 b l2 : chain l a l1 -> chain l1 b l2 -> chain l (a ++ b) l2.
Proof. induction 1; intros Hb; cbn [app]; auto. constructor; auto. Qed.

Lemma rom_chain reg rom l a l' : size_ok 11 (snd rom) -> 0 <= fst rom -> assign_rom reg rom l = Ok (a, l') ->
  chain l a l' /\ map summary a = wanted_rom reg rom.
Proof.
  destruct rom as [raw size]. unfold assign_rom, wanted_rom. cbn [fst snd]. intros Hsz Hr H.
  destruct (size =? 0) eqn:E0. { apply Ok_inj in H; apply pair_equal_spec in H; destruct H as [<- <-]. split; [constructor|reflexivity]. }
  apply Z.eqb_neq in E0. destruct (size_case _ _ Hsz E0 ltac:(lia)) as (m & Hm & Em & Hpos).
  destruct (take Mem size l) as [addr l1] eqn:Et. destruct (take_ok _ _ _ _ _ m Et Em ltac:(lia)) as (B & D & ->).
  destruct (dword _) as [d|] eqn:Ed; [|discriminate]. apply dword_ok in Ed. cbn [bind] in H. apply Ok_inj in H; apply pair_equal_spec in H; destruct H as [<- <-].
  split; [|reflexivity]. constructor; cbn [a_kind a_addr a_size]; auto; [|constructor]. intros Ha. unfold register; cbn [a_dws]. subst d size.
  apply (keep_high raw addr m 11); [lia|auto|lia].
Qed.

Lemma fn_chain p l a l' : fn_ok p -> assign_fn p l = Ok (a, l') -> chain l a l' /\ map summary a = requests p.
Proof.
  intros [H0 H1] H. unfold assign_fn, requests in *.
  destruct (p_type p =? 0) eqn:E0; [|destruct (p_type p =? 1) eqn:E1].
  - apply Z.eqb_eq in E0. destruct (H0 E0) as (Hb & Hr & Hr').
    destruct (assign_bars _ _ _) as [[a1 l1]|] eqn:Ea; [|discriminate]. cbn [bind] in H.
    destruct (assign_rom _ _ _) as [[a2 l2]|] eqn:Eb; [|discriminate]. cbn [bind] in H. apply Ok_inj in H; apply pair_equal_spec in H; destruct H as [<- <-].
    apply (bars_chain _ _ _ _ _ _ (Nat.le_refl _) Hb) in Ea. apply rom_chain in Eb; auto. destruct Ea, Eb.
    split; [eapply chain_app; eauto|]. rewrite map_app. congruence.
  - apply Z.eqb_eq in E1. destruct (H1 E1) as (Hb & Hr & Hr').
    destruct (assign_bars _ _ _) as [[a1 l1]|] eqn:Ea; [|discriminate]. cbn [bind] in H.
    destruct (assign_rom _ _ _) as [[a2 l2]|] eqn:Eb; [|discriminate]. cbn [bind] in H. apply Ok_inj in H; apply pair_equal_spec in H; destruct H as [<- <-].
    apply (bars_chain _ _ _ _ _ _ (Nat.le_refl _) Hb) in Ea. apply rom_chain in Eb; auto. destruct Ea, Eb.
    split; [eapply chain_app; eauto|]. rewrite map_app. congruence.
  - apply Ok_inj in H; apply pair_equal_spec in H; destruct H as [<- <-]. split; [constructor|reflexivity].
Qed.

(** ** The tree *)
Definition go_assign :=
  fix go (ds : list (pfn * option pbus)) (l : lims) : res (list adev * lims) :=
       match ds with
       | [] => Ok ([], l)
       | (p, o) :: ds =>
         '(own, l) <- assign_fn p l ;;
         match o with
         | None => '(r, l') <- go ds l ;; Ok (ADev p own None :: r, l')
         | Some c =>
           '(kids, l1) <- assign_bus c l ;;
           let l1 := round l1 in
           regs <- setup_bridge l (less1 l1) ;;
           '(r, l') <- go ds l1 ;;
           Ok (ADev p own (Some (regs, kids)) :: r, l')
         end
       end.
Lemma assign_bus_eq n q m ds l : assign_bus (PBus n q m ds) l = go_assign ds l.
Proof. reflexivity. Qed.
Lemma go_assign_cons p o ds l : go_assign ((p, o) :: ds) l =
  ('(own, l) <- assign_fn p l ;;
         match o with
         | None => '(r, l') <- go_assign ds l ;; Ok (ADev p own None :: r, l')
         | Some c =>
           '(kids, l1) <- assign_bus c l ;;
           let l1 := round l1 in
           regs <- setup_bridge l (less1 l1) ;;
           '(r, l') <- go_assign ds l1 ;;
           Ok (ADev p own (Some (regs, kids)) :: r, l')
         end).
Proof. reflexivity. Qed.
Definition go_ok := fix go (ds : list (pfn * option pbus)) := match ds with [] => True | (p, o) :: r => fn_ok p /\ match o with Some c => tree_ok c | None => True end /\ go r end.
Definition go_served :=
  fix go (ds : list (pfn * option pbus)) (t : list adev) :=
       match ds, t with
       | [], [] => True
       | (p, o) :: ds, ADev q own sub :: t =>
         p = q /\ map (fun a => (a_reg a, a_kind a, a_size a)) own = requests p /\
         match o, sub with Some c, Some (_, kids) => served c kids | None, None => True | _, _ => False end /\ go ds t
       | _, _ => False
       end.
Definition go_tidy := fix go (ds : list (pfn * option pbus)) := match ds with [] => True | (_, o) :: r => match o with Some c => tidy c | None => True end /\ go r end.
Definition go_need (k : kind) :=
    fix go (ds : list (pfn * option pbus)) := match ds with [] => 0 | (p, o) :: r => need_fn k p + match o with Some c => need k c + granule k | None => 0 end + go r end.

Lemma pbus_ind2 (P : pbus -> Prop) (Q : list (pfn * option pbus) -> Prop) :
  (forall n q m ds, Q ds -> P (PBus n q m ds)) -> Q [] -> (forall p ds, Q ds -> Q ((p, None) :: ds)) ->
  (forall p c ds, P c -> Q ds -> Q ((p, Some c) :: ds)) -> forall b, P b.
Proof.
  intros H1 H2 H3 H4. fix IH 1. intros [n q m ds]. apply H1.
  induction ds as [|[p [c|]] ds IHd]; auto.
Qed.

Lemma laid_weak (G G' : Prop) l t l' : (G' -> G) -> laid G l t l' -> laid G' l t l'.
Proof. intros HG. induction 1; econstructor; eauto. Qed.

Lemma chain_none l a l' : chain l a l' -> map summary a = [] -> a = [] /\ l' = l.
Proof. destruct 1; cbn [map]; [auto|discriminate]. Qed.

Lemma assign_laid b : forall l t l', tree_ok b -> assign_bus b l = Ok (t, l') -> laid (tidy b /\ granular l) l t l' /\ served b t.
Proof.
  induction b as [n q m ds IH| |p ds IH|p c ds IHc IH] using pbus_ind2 with
    (Q := fun ds => forall (G : Prop) l t l', go_ok ds -> go_assign ds l = Ok (t, l') ->
            (G -> go_tidy ds /\ ((exists p c, In (p, Some c) ds) -> granular l /\ forall p o, In (p, o) ds -> requests p = [])) ->
            laid G l t l' /\ go_served ds t).
  - intros l t l' Hok H. rewrite assign_bus_eq in H. change (tree_ok (PBus n q m ds)) with (go_ok ds) in Hok.
    apply (IH (tidy (PBus n q m ds) /\ granular l)) in H; [exact H|exact Hok|].
    intros [Ht Hg]. cbn [tidy] in Ht. destruct Ht as [Ht1 Ht2]. split; [exact Ht2|]. intros X. split; [exact Hg|exact (Ht1 X)].
  - intros G l t l' _ H _. cbn in H. apply Ok_inj in H. apply pair_equal_spec in H. destruct H as [<- <-]. split; [constructor|exact Logic.I].
  - intros G l t l' [Hf [_ Hok]] H HG. rewrite go_assign_cons in H.
    destruct (assign_fn p l) as [[own l1]|] eqn:Ef; [|discriminate]. cbn [bind] in H. apply fn_chain in Ef; auto. destruct Ef as [C W].
    destruct (go_assign ds l1) as [[r l2]|] eqn:Er; [|discriminate]. cbn [bind] in H. apply Ok_inj in H. apply pair_equal_spec in H. destruct H as [<- <-].
    apply (IH G) in Er; auto.
    + destruct Er as [L S']. split; [econstructor; eauto|]. repeat split; auto.
    + intros g. destruct (HG g) as [[_ T1] T2]. split; auto. intros (p' & c' & Hin). destruct T2 as [T2 T3].
      * exists p', c'. now right.
      * split. { rewrite (T3 p None (or_introl eq_refl)) in W. apply (chain_none _ _ _ C) in W. destruct W as [_ ->]. auto. }
        intros; eapply T3; right; eauto.
  - intros G l t l' [Hf [Hc Hok]] H HG. rewrite go_assign_cons in H.
    destruct (assign_fn p l) as [[own l1]|] eqn:Ef; [|discriminate]. cbn [bind] in H. apply fn_chain in Ef; auto. destruct Ef as [C W].
    destruct (assign_bus c l1) as [[kids lk]|] eqn:Ek; [|discriminate]. cbn [bind] in H. cbv zeta in H.
    destruct (setup_bridge l1 (less1 (round lk))) as [regs|] eqn:Es; [|discriminate]. cbn [bind] in H.
    destruct (go_assign ds (round lk)) as [[r l2]|] eqn:Er; [|discriminate]. cbn [bind] in H. apply Ok_inj in H. apply pair_equal_spec in H. destruct H as [<- <-].
    apply IHc in Ek; auto. destruct Ek as [Lk Sk].
    assert (Hl1 : G -> granular l1 /\ tidy c).
    { intros g. destruct (HG g) as [[T0 T1] T2]. split; auto. destruct T2 as [T2 T3]. { exists p, c. now left. }
      rewrite (T3 p (Some c) (or_introl eq_refl)) in W. apply (chain_none _ _ _ C) in W. destruct W as [_ ->]. auto. }
    apply (IH G) in Er; auto.
    + destruct Er as [L S']. split.
      * econstructor; eauto. { eapply laid_weak; [|apply Lk]. intros g. destruct (Hl1 g). auto. } { intros g. apply (Hl1 g). }
      * repeat split; auto.
    + intros g. destruct (HG g) as [[_ T1] T2]. split; auto. intros (p' & c' & Hin). split; [apply round_granular|].
      destruct T2 as [T2 T3]. { exists p, c. now left. } intros; eapply T3; right; eauto.
Qed.

(** ** What the layout says *)
Definition within (l l' : lims) (a : alloc) : Prop := lim (a_kind a) l <= a_addr a /\ a_addr a + a_size a <= lim (a_kind a) l'.
Definition before (a b : alloc) : Prop := a_kind a = a_kind b -> a_addr a + a_size a <= a_addr b.
Definition alloc_ok (a : alloc) : Prop :=
  (a_size a | a_addr a) /\ 0 < a_size a /\ (0 <= a_addr a < 2 ^ 64 -> register a / a_size a * a_size a = a_addr a).

Lemma within_le l0 l l' l1 a : le_lims l0 l -> le_lims l' l1 -> within l l' a -> within l0 l1 a.
Proof. unfold within. intros H1 H2 [A B]. specialize (H1 (a_kind a)). specialize (H2 (a_kind a)). lia. Qed.
Lemma widen l0 l l' l1 a : Forall (within l l') a -> le_lims l0 l -> le_lims l' l1 -> Forall (within l0 l1) a.
Proof. intros H H1 H2. eapply Forall_impl; [|apply H]. intros x. now apply within_le. Qed.
Lemma within_before l0 l1 l2 a b : within l0 l1 a -> within l1 l2 b -> before a b.
Proof. unfold within, before. intros [_ H] [H' _] E. rewrite <- E in H'. lia. Qed.

Lemma cross l0 l1 l2 a b : Forall (within l0 l1) a -> Forall (within l1 l2) b -> forall x y, In x a -> In y b -> before x y.
Proof. rewrite !Forall_forall. intros H1 H2 x y Hx Hy. exact (within_before l0 l1 l2 x y (H1 x Hx) (H2 y Hy)). Qed.

Lemma fop_app {A} (R : A -> A -> Prop) a b : ForallOrdPairs R a -> ForallOrdPairs R b -> (forall x y, In x a -> In y b -> R x y) -> ForallOrdPairs R (a ++ b).
Proof.
  induction 1 as [|x a Hx Ha IH]; intros Hb H; cbn [app]; auto. constructor.
  - apply Forall_app. split; auto. apply Forall_forall. intros y Hy. apply H; [now left|auto].
  - apply IH; auto. intros y z Hy Hz. apply H; [now right|auto].
Qed.

Lemma chain_facts l a l' : chain l a l' -> le_lims l l' /\ Forall (within l l') a /\ Forall alloc_ok a /\ ForallOrdPairs before a.
Proof.
  induction 1 as [l|l a r l' B D P R C (I1 & I2 & I3 & I4)].
  - repeat split; try constructor. intros k; lia.
  - assert (I0 : le_lims l (put_lim (a_kind a) (a_addr a + a_size a) l)).
    { intros k. rewrite lim_put. destruct (kind_eqb k (a_kind a)) eqn:E; [apply kind_eqb_eq in E; subst k|]; lia. }
    assert (W : within l (put_lim (a_kind a) (a_addr a + a_size a) l) a).
    { split; [lia|]. rewrite lim_put. rewrite (proj2 (kind_eqb_eq _ _) eq_refl). lia. }
    split; [eapply le_trans; eauto|]. split; [|split].
    + constructor. { eapply within_le; [apply le_refl|apply I1|apply W]. }
      eapply Forall_impl; [|apply I2]. intros x Hx. eapply within_le; [apply I0|apply le_refl|apply Hx].
    + constructor; auto. repeat split; auto.
    + constructor; auto. eapply Forall_impl; [|apply I2]. intros x Hx. eapply within_before; eauto.
Qed.

Lemma in_forall {A} (P : A -> Prop) l x : Forall P l -> In x l -> P x.
Proof. intros H. rewrite Forall_forall in H. auto. Qed.

Lemma laid_facts G l t l' : laid G l t l' ->
  le_lims l l' /\ Forall (within l l') (flat_map allocs t) /\ Forall alloc_ok (flat_map allocs t) /\ ForallOrdPairs before (flat_map allocs t).
Proof.
  induction 1 as [l|l p own l1 r l2 C L (I1 & I2 & I3 & I4)|l p own l1 kids l2 regs r l3 C L (I1 & I2 & I3 & I4) HG E L2 (J1 & J2 & J3 & J4)].
  - repeat split; try constructor. intros k; lia.
  - apply chain_facts in C. destruct C as (C1 & C2 & C3 & C4). cbn [flat_map allocs]. rewrite app_nil_r.
    split; [eapply le_trans; eauto|]. split; [|split].
    + apply Forall_app; split; (eapply widen; [eassumption| |]; auto using le_refl).
    + apply Forall_app; auto.
    + apply fop_app; auto. eapply cross; eassumption.
  - apply chain_facts in C. destruct C as (C1 & C2 & C3 & C4). cbn [flat_map allocs]. rewrite <- app_assoc.
    pose proof (round_le l2) as R.
    assert (le_lims l1 (round l2)) by (eapply le_trans; eauto).
    assert (le_lims l1 l3) by (eapply le_trans; eauto).
    assert (le_lims l l2) by (eapply le_trans; eauto).
    assert (le_lims l2 l3) by (eapply le_trans; eauto).
    assert (le_lims l (round l2)) by (eapply le_trans; eauto).
    assert (M : Forall (within l1 l3) (flat_map allocs kids ++ flat_map allocs r)).
    { apply Forall_app; split; (eapply widen; [eassumption| |]; auto using le_refl). }
    split; [eapply le_trans; eauto|]. split; [|split].
    + apply Forall_app; split; [|]; (eapply widen; [eassumption| |]; auto using le_refl).
    + repeat (apply Forall_app; split); auto.
    + apply fop_app; auto.
      * apply fop_app; auto. eapply cross; [|apply J2]. eapply widen; [apply I2|apply le_refl|apply R].
      * eapply cross; eassumption.
Qed.

(** Every bridge splits the allocations. *)
Definition split_at (G : Prop) (l l' : lims) (all : list alloc) (br : bregs * list alloc) : Prop :=
  exists pre post l1 l2, all = pre ++ snd br ++ post /\ le_lims l l1 /\ le_lims l1 l2 /\ le_lims (round l2) l' /\
    setup_bridge l1 (less1 (round l2)) = Ok (fst br) /\ (G -> granular l1) /\
    Forall (within l l1) pre /\ Forall (within l1 l2) (snd br) /\ Forall (within (round l2) l') post.

Lemma split_wider G l l' l0 l1 a all b br : le_lims l0 l -> le_lims l' l1 -> Forall (within l0 l) a -> Forall (within l' l1) b ->
  split_at G l l' all br -> split_at G l0 l1 (a ++ all ++ b) br.
Proof.
  intros H1 H2 Ha Hb (pre & post & b1 & b2 & -> & A1 & A2 & A3 & A4 & A5 & A6 & A7 & A8).
  exists (a ++ pre), (post ++ b), b1, b2. split. { now rewrite <- !app_assoc. }
  split; [eapply le_trans; eauto|]. split; auto. split; [eapply le_trans; eauto|]. split; auto. split; auto.
  split; [|split; auto].
  - apply Forall_app; split; (eapply widen; [eassumption| |]; auto using le_refl).
  - apply Forall_app; split; (eapply widen; [eassumption| |]; auto using le_refl).
Qed.

Lemma laid_bridges G l t l' : laid G l t l' -> Forall (split_at G l l' (flat_map allocs t)) (flat_map bridges_of t).
Proof.
  induction 1 as [l|l p own l1 r l2 C L IH|l p own l1 kids l2 regs r l3 C L IH HG E L2 IH2].
  - constructor.
  - apply chain_facts in C. destruct C as (C1 & C2 & C3 & C4). cbn [flat_map allocs bridges_of app]. rewrite app_nil_r.
    eapply Forall_impl; [|apply IH]. intros br Hb.
    rewrite <- (app_nil_r (flat_map allocs r)). eapply split_wider; [apply C1|apply le_refl|auto|constructor|auto].
  - apply chain_facts in C. destruct C as (C1 & C2 & C3 & C4). cbn [flat_map allocs bridges_of app].
    pose proof (laid_facts _ _ _ _ L) as (K1 & K2 & _). pose proof (laid_facts _ _ _ _ L2) as (R1 & R2 & _).
    pose proof (round_le l2) as R.
    rewrite <- app_assoc. constructor; [|apply Forall_app; split].
    + exists own, (flat_map allocs r), l1, l2. cbn [fst snd]. auto 10.
    + eapply Forall_impl; [|apply IH]. intros br Hb. eapply split_wider; [apply C1| |auto| |apply Hb].
      * eapply le_trans; eauto.
      * eapply Forall_impl; [|apply R2]. intros x Hx. eapply within_le; [apply R|apply le_refl|auto].
    + eapply Forall_impl; [|apply IH2]. intros br Hb. rewrite app_assoc. rewrite <- (app_nil_r (flat_map allocs r)).
      eapply split_wider; [| |apply Forall_app; split| |apply Hb].
      * eapply le_trans; [apply C1|]. eapply le_trans; eauto.
      * apply le_refl.
      * eapply Forall_impl; [|apply C2]. intros x Hx. eapply within_le; [apply le_refl| |apply Hx]. eapply le_trans; eauto.
      * eapply Forall_impl; [|apply K2]. intros x Hx. eapply within_le; [apply C1|apply R|apply Hx].
      * constructor.
Qed.
