(** What the host writes, and the registers after it. *)
From Verif Require Import Base BaseProofs Bits ModelUtils ModelTlp ModelAttrs ModelCapList ModelConfig ModelFunction ModelRoute ModelEnum ModelAssign SpecBar SpecRoute
  SpecEnum SpecAssign ModelTree SpecTree ProofsConfig ProofsBar ProofsProbe ProofsRoute ProofsAssign ProofsAssignFacts.

(** ** One function *)
Definition other (a : attr) : Prop := (forall j, 0 <= j < 6 -> a <> fn_bar j) /\ a <> fn_expansion_rom_enable /\ a <> fn_expansion_rom_addr.
Lemma seen_slots : forall lay bs, seen lay bs -> zlen bs = total_slots lay.
Proof.
  induction lay as [|e lay IH]; intros bs H.
  - destruct bs; [reflexivity|destruct H].
  - change (total_slots (e :: lay)) with (entry_slots e + total_slots lay). destruct e as [[[k n] base]|].
    + destruct bs as [|[raw size] bs]; [destruct H|]. cbn [seen] in H. destruct H as (_ & _ & _ & H). cbn [entry_slots]. unfold slots. destruct (is_wide k).
      * destruct bs as [|b bs]; [destruct H|]. rewrite <- (IH _ H). unfold zlen. cbn [length]. lia.
      * rewrite <- (IH _ H). unfold zlen. cbn [length]. lia.
    + destruct bs as [|[raw size] bs]; [destruct H|]. destruct H as (_ & _ & H). rewrite <- (IH _ H). unfold zlen. cbn [length entry_slots]. lia.
Qed.
(** The low bits *)
Lemma low_kind raw k : 0 <= raw -> raw mod (if is_io k then 4 else 16) = type_bits k ->
  Z.testbit raw 0 = is_io k /\ (is_io k = false -> Z.testbit raw 2 = is_wide k /\ Z.testbit raw 3 = (match k with BMem _ pf => pf | BIo => false end)).
Proof.
  intros P M. assert (T : forall i, 0 <= i < (if is_io k then 2 else 4) -> Z.testbit raw i = Z.testbit (type_bits k) i).
  { intros i Hi. rewrite <- M. replace (if is_io k then 4 else 16) with (2 ^ (if is_io k then 2 else 4)) by (destruct (is_io k); reflexivity). symmetry. apply Z.mod_pow2_bits_low. lia. }
  split; [rewrite T by (destruct (is_io k); lia); destruct k as [|[] []]; reflexivity|]. intros E. rewrite E in T. rewrite !T by lia. destruct k as [|[] []]; try discriminate E; split; reflexivity.
Qed.
Lemma odd_kind raw k : 0 <= raw -> raw mod (if is_io k then 4 else 16) = type_bits k -> Z.odd raw = is_io k /\ wide raw = is_wide k.
Proof.
  intros P M. destruct (low_kind raw k P M) as [A B]. rewrite bit0 in A. split; [exact A|]. unfold wide. rewrite A. destruct (is_io k) eqn:E; [destruct k; try discriminate; reflexivity|].
  destruct (B eq_refl) as [B1 _]. rewrite bit_n in B1 by lia. exact B1.
Qed.
Lemma seen_ok s : forall lay i bs, laid_out s i lay -> seen lay bs -> bars_ok bs.
Proof.
  induction lay as [|e lay IH]; intros i bs L H.
  - destruct bs; [exact Logic.I|destruct H].
  - destruct e as [[[k n] base]|]; (destruct bs as [|[raw size] bs]; [destruct H|]); cbn [seen laid_out] in *.
    + destruct H as (-> & P & M & H), L as [(S & _) L]. destruct (odd_kind raw k P M) as [O W]. cbn [bars_ok]. rewrite O, W.
      assert (N0 : (2 ^ n =? 0) = false) by (apply Z.eqb_neq; unfold SpecBar.size_ok in S; assert (0 < 2 ^ n) by (apply Z.pow_pos_nonneg; destruct (is_io k); lia); lia).
      split; [exact P|]. split; [right; exists n; split; [unfold SpecBar.size_ok in S; destruct (is_io k); lia|reflexivity]|]. rewrite N0. cbn [orb negb].
      destruct (is_wide k); [destruct bs as [|b bs]; [exact H|]|]; cbn [negb]; exact (IH _ _ L H).
    + destruct H as (-> & -> & H), L as (_ & _ & L). cbn. split; [lia|]. split; [left; reflexivity|]. exact (IH _ _ L H).
Qed.

(** The writes *)
Lemma slots_pos k : 1 <= slots k <= 2.
Proof. unfold slots. destruct (is_wide k); lia. Qed.
Definition fits_in (a : alloc) : Prop := 0 <= a_addr a /\ a_addr a + a_size a <= top (a_kind a) /\ (a_size a | a_addr a).
Lemma written rd wr nb i k n base v f : In (rd, wr, nb) bar_kinds -> 0 <= i -> i + slots k <= nb -> bar_at (f_attr f) i k n base -> 0 <= v < 2 ^ bwidth k ->
  let f' := bar_write wr i k v f in
  bar_at (f_attr f') i k n (v - v mod 2 ^ n) /\ f_id f' = f_id f /\ (forall a, other a -> f_attr f' a = f_attr f a) /\
  (forall j, 0 <= j < nb -> f_attr f' (fn_bar_mask j) = f_attr f (fn_bar_mask j) /\ (j < i \/ i + slots k <= j -> f_attr f' (fn_bar j) = f_attr f (fn_bar j))).
Proof.
  intros W Hi Hs B Hv. cbv zeta. split; [exact (bar_written rd wr nb f i k n base v W Hi Hs B Hv)|]. destruct (kind_bars _ _ _ W) as [Hnb K]. unfold bar_write, slots in *.
  assert (One : forall i x g, 0 <= i < nb -> f_id (wr (4 + i) x 15 g) = f_id g /\ (forall a, other a -> f_attr (wr (4 + i) x 15 g) a = f_attr g a) /\
    (forall j, 0 <= j < nb -> f_attr (wr (4 + i) x 15 g) (fn_bar_mask j) = f_attr g (fn_bar_mask j) /\ (j <> i -> f_attr (wr (4 + i) x 15 g) (fn_bar j) = f_attr g (fn_bar j)))).
  { clear i Hi Hs B. intros i x g Hi. split; [rewrite (wr_bar rd wr nb i x 15 g W Hi); reflexivity|]. split.
    - intros a (O & _). rewrite (wr_bar rd wr nb i x 15 g W Hi). cbn [with_attr f_attr]. unfold aset. specialize (O i ltac:(lia)). destruct (Pos.eqb_spec a (fn_bar i)); [contradiction|reflexivity].
    - intros j Hj. destruct (K j g Hj) as [_ K1]. destruct (K1 (4 + i) x 15) as [K2 K3]. split; [exact K2|]. intros Ne. rewrite K3. replace (4 + i =? 4 + j) with false by lia. reflexivity. }
  destruct (is_wide k).
  - destruct (One i (v mod 2 ^ 32) f ltac:(lia)) as (A1 & A2 & A3). replace (5 + i) with (4 + (i + 1)) by lia.
    destruct (One (i + 1) (v / 2 ^ 32) (wr (4 + i) (v mod 2 ^ 32) 15 f) ltac:(lia)) as (B1 & B2 & B3). split; [congruence|]. split; [intros a O; rewrite B2, A2 by exact O; reflexivity|].
    intros j Hj. destruct (A3 j Hj) as [A4 A5], (B3 j Hj) as [B4 B5]. split; [congruence|]. intros Ne. rewrite B5, A5 by lia. reflexivity.
  - destruct (One i v f ltac:(lia)) as (A1 & A2 & A3). split; [exact A1|]. split; [exact A2|]. intros j Hj. destruct (A3 j Hj) as [A4 A5]. split; [exact A4|]. intros Ne. apply A5. lia.
Qed.
(** The dwords of one BAR *)
Definition value (k : bkind) (raw addr : Z) : Z := addr + type_bits k.
Lemma raw_low raw k m : 0 <= raw -> raw mod (if is_io k then 4 else 16) = type_bits k -> m = (if is_io k then 2 else 4) -> raw mod 2 ^ m = type_bits k.
Proof. intros _ M ->. rewrite <- M. destruct (is_io k); reflexivity. Qed.
Lemma dws_write rd wr nb i k n raw addr f ds : In (rd, wr, nb) bar_kinds -> 0 <= i -> i + slots k <= nb -> SpecBar.size_ok k n -> 0 <= raw ->
  raw mod (if is_io k then 4 else 16) = type_bits k -> 0 <= addr -> addr + 2 ^ n <= 2 ^ bwidth k -> (2 ^ n | addr) ->
  (let v := Z.lor (Z.land raw (if is_io k then 3 else 15)) addr in ds = if is_wide k then [Z.land v 0xffffffff; Z.land (Z.shiftr v 32) 0xffffffff] else [v]) ->
  write_dws wr ((0x10 + 4 * i) / 4) ds f = bar_write wr i k (content k addr) f /\ 0 <= content k addr < 2 ^ bwidth k /\ content k addr - content k addr mod 2 ^ n = addr.
Proof.
  intros W Hi Hs S P M A1 A2 D Ed. cbv zeta in Ed.
  assert (Sm : (if is_io k then 2 else 4) <= n) by (unfold SpecBar.size_ok in S; lia).
  assert (V : Z.lor (Z.land raw (if is_io k then 3 else 15)) addr = content k addr).
  { unfold content. rewrite <- (raw_low raw k _ P M eq_refl). replace (if is_io k then 3 else 15) with (Z.ones (if is_io k then 2 else 4)) by (destruct (is_io k); reflexivity).
    apply lor_low with n; [destruct (is_io k); lia|exact D|exact A1]. }
  rewrite V in Ed. replace ((0x10 + 4 * i) / 4) with (4 + i) by lia.
  assert (B : base_ok k n addr). { split; [assert (0 < 2 ^ n) by (apply Z.pow_pos_nonneg; destruct (is_io k); lia); lia|]. apply Z.mod_divide; [apply Z.pow_nonzero; destruct (is_io k); lia|exact D]. }
  pose proof (content_range k n addr S B) as R. pose proof (content_mod k n addr S B) as Mo. split; [|split; [exact R|rewrite Mo; unfold content; lia]].
  subst ds. unfold bar_write, bwidth in *. destruct (is_wide k); cbn [write_dws].
  - replace (4 + i + 1) with (5 + i) by lia. change 0xffffffff with (Z.ones 32). rewrite !Z.land_ones, Z.shiftr_div_pow2 by lia. rewrite (Z.mod_small (_ / _)); [reflexivity|].
    change (2 ^ 64) with (2 ^ 32 * 2 ^ 32) in R. split; [apply Z.div_pos; lia|apply Z.div_lt_upper_bound; lia].
  - reflexivity.
Qed.

Lemma top_width k : kind_of_bar k = Io \/ kind_of_bar k = Mem \/ is_wide k = true -> top (kind_of_bar k) <= 2 ^ bwidth k.
Proof. intros _. destruct k as [|[] []]; cbn; lia. Qed.
Lemma bars_set rd wr nb : In (rd, wr, nb) bar_kinds -> forall lay i bs l a l' f, 0 <= i -> i + total_slots lay = nb -> laid_out (f_attr f) i lay -> seen lay bs ->
  assign_bars (0x10 + 4 * i) bs l = Ok (a, l') -> Forall fits_in a ->
  let f' := write_allocs wr a f in
  (exists lay', laid_out (f_attr f') i lay' /\ total_slots lay' = total_slots lay /\ map place (SpecBar.windows i lay') = map spot a) /\
  f_id f' = f_id f /\ (forall x, other x -> f_attr f' x = f_attr f x) /\
  (forall j, 0 <= j < nb -> f_attr f' (fn_bar_mask j) = f_attr f (fn_bar_mask j) /\ (j < i -> f_attr f' (fn_bar j) = f_attr f (fn_bar j))) /\
  Forall (fun b => is_bar b = true) a.
Proof.
  intros W. destruct (kind_bars _ _ _ W) as [Hnb K]. induction lay as [|e lay IH]; intros i bs l a l' f Hi Hs L Se E F; cbv zeta.
  - destruct bs; [|destruct Se]. cbn [assign_bars] in E. apply Ok_inj, pair_equal_spec in E. destruct E as [<- <-]. cbn [write_allocs fold_left].
    split; [exists []; repeat split|]. split; [reflexivity|]. split; [reflexivity|]. split; [intros; split; reflexivity|constructor].
  - change (total_slots (e :: lay)) with (entry_slots e + total_slots lay) in *. pose proof (slots_nonneg lay) as SN. destruct e as [[[k n] base]|]; (destruct bs as [|[raw size] bs]; [destruct Se|]); cbn [seen laid_out entry_slots] in *.
    + destruct Se as (-> & P & M & Se), L as [B L]. pose proof (proj1 B) as S. destruct (low_kind raw k P M) as [T0 T1].
      assert (N0 : (2 ^ n =? 0) = false) by (apply Z.eqb_neq; unfold SpecBar.size_ok in S; assert (0 < 2 ^ n) by (apply Z.pow_pos_nonneg; destruct (is_io k); lia); lia).
      pose proof (slots_pos k) as SP.
      (* one BAR and the rest *)
      assert (Step : exists addr ds a2 l1 bs2, a = mkA (0x10 + 4 * i) (kind_of_bar k) addr (2 ^ n) ds :: a2 /\ assign_bars (0x10 + 4 * (i + slots k)) bs2 l1 = Ok (a2, l') /\ seen lay bs2 /\
        ds = (let v := Z.lor (Z.land raw (if is_io k then 3 else 15)) addr in if is_wide k then [Z.land v 0xffffffff; Z.land (Z.shiftr v 32) 0xffffffff] else [v]) /\
        (is_wide k = false -> exists d, ds = [d] /\ 0 <= d < 2 ^ 32)).
      { cbn [assign_bars] in E. rewrite N0, T0 in E. destruct k as [|wd pf]; cbn [is_io] in *.
        - destruct (take Io (2 ^ n) l) as [addr l1] eqn:Et. destruct (dword (Z.lor (Z.land raw 3) addr)) as [d|] eqn:Ed; [|discriminate E]. cbn [bind] in E.
          destruct (assign_bars (0x10 + 4 * i + 4) bs l1) as [[a2 l2]|] eqn:Ea; [|discriminate E]. cbn [bind] in E. apply Ok_inj, pair_equal_spec in E. destruct E as [<- <-].
          pose proof Ed as Ed'. apply dword_ok in Ed'. exists addr, [d], a2, l1, bs. cbn [kind_of_bar is_wide]. split; [reflexivity|]. split; [replace (0x10 + 4 * (i + slots BIo)) with (0x10 + 4 * i + 4) by (unfold slots; cbn [is_wide]; lia); exact Ea|]. split; [exact Se|].
          split; [rewrite Ed'; reflexivity|]. intros _. exists d. split; [reflexivity|]. subst d. unfold dword in Ed. destruct (_ && _) eqn:Q; [lia|discriminate Ed].
        - destruct (T1 eq_refl) as [T2 T3]. rewrite T2, T3 in E. cbn [is_wide] in *. destruct wd.
          + destruct bs as [|b bs]; [discriminate E|]. replace (if pf then Pref else Mem) with (kind_of_bar (BMem true pf)) in E by (destruct pf; reflexivity).
            destruct (take (kind_of_bar (BMem true pf)) (2 ^ n) l) as [addr l1] eqn:Et.
            destruct (assign_bars (0x10 + 4 * i + 8) bs l1) as [[a2 l2]|] eqn:Ea; [|discriminate E]. cbn [bind] in E. apply Ok_inj, pair_equal_spec in E. destruct E as [<- <-].
            exists addr, [Z.land (Z.lor (Z.land raw 15) addr) 0xffffffff; Z.land (Z.shiftr (Z.lor (Z.land raw 15) addr) 32) 0xffffffff], a2, l1, bs. split; [reflexivity|]. split; [replace (0x10 + 4 * (i + slots (BMem true pf))) with (0x10 + 4 * i + 8) by (unfold slots; cbn [is_wide]; lia); exact Ea|]. split; [exact Se|].
            split; [reflexivity|discriminate].
          + destruct (take Mem (2 ^ n) l) as [addr l1] eqn:Et. destruct (dword (Z.lor (Z.land raw 15) addr)) as [d|] eqn:Ed; [|discriminate E]. cbn [bind] in E.
            destruct (assign_bars (0x10 + 4 * i + 4) bs l1) as [[a2 l2]|] eqn:Ea; [|discriminate E]. cbn [bind] in E. apply Ok_inj, pair_equal_spec in E. destruct E as [<- <-].
            pose proof Ed as Ed'. apply dword_ok in Ed'. exists addr, [d], a2, l1, bs. split; [reflexivity|]. split; [replace (0x10 + 4 * (i + slots (BMem false pf))) with (0x10 + 4 * i + 4) by (unfold slots; cbn [is_wide]; lia); exact Ea|]. split; [exact Se|].
            split; [rewrite Ed'; reflexivity|]. intros _. exists d. split; [reflexivity|]. subst d. unfold dword in Ed. destruct (_ && _) eqn:Q; [lia|discriminate Ed]. }
      destruct Step as (addr & ds & a2 & l1 & bs2 & -> & Ea & Se2 & Eds & Nar). apply Forall_cons_iff in F. destruct F as [F1 F2]. cbv zeta in Eds. subst ds. destruct F1 as (A1 & A2 & A3). cbn [a_addr a_size a_kind] in *.
      assert (TW : addr + 2 ^ n <= 2 ^ bwidth k) by (pose proof (top_width k) as TW; destruct k as [|[] []]; cbn in *; lia).
      destruct (dws_write rd wr nb i k n raw addr f _ W Hi ltac:(lia) S P M A1 TW A3 eq_refl) as (E1 & E2 & E3).
      cbn [write_allocs fold_left a_reg a_dws]. cbv zeta in E1. rewrite E1. set (f1 := bar_write wr i k (content k addr) f).
      destruct (written rd wr nb i k n base (content k addr) f W Hi ltac:(lia) B E2) as (W1 & W2 & W3 & W4). fold f1 in W1, W2, W3, W4. rewrite E3 in W1.
      clear T0 T1 N0 M Nar A2 TW E1 E2 E3 P.
      assert (L1 : laid_out (f_attr f1) (i + slots k) lay). { apply (laid_frame (f_attr f)); [|exact L]. intros j Hj. destruct (W4 j ltac:(lia)) as [Q1 Q2]. split; [apply Q2; lia|exact Q1]. }
      destruct (IH (i + slots k) bs2 l1 a2 l' f1 ltac:(lia) ltac:(lia) L1 Se2 Ea F2) as ((lay' & R1 & R2 & R3) & R4 & R5 & R6 & R7). cbv zeta in *.
      fold (write_allocs wr a2 f1). set (f2 := write_allocs wr a2 f1) in *.
      split; [|split; [congruence|split; [intros x O; rewrite R5, W3 by exact O; reflexivity|split]]].
      * exists (Some (k, n, addr) :: lay'). split; [split; [|exact R1]|split].
        -- apply (bar_frame (f_attr f1)); [|exact W1]. intros j Hj. destruct (R6 j ltac:(lia)) as [Q1 Q2]. split; [apply Q2; lia|exact Q1].
        -- change (total_slots (Some (k, n, addr) :: lay')) with (slots k + total_slots lay'). lia.
        -- cbn [SpecBar.windows map]. rewrite R3. f_equal. unfold place, spot. cbn [a_reg a_kind a_addr a_size a_dws]. destruct (is_wide k); reflexivity.
      * intros j Hj. destruct (R6 j Hj) as [Q1 Q2], (W4 j Hj) as [Q3 Q4]. split; [congruence|]. intros Lt. rewrite Q2, Q4 by lia. reflexivity.
      * constructor; [|exact R7]. unfold is_bar. cbn [a_reg]. lia.
    + destruct Se as (-> & -> & Se), L as (L1 & L2 & L). cbn [assign_bars Z.eqb] in E. replace (0x10 + 4 * i + 4) with (0x10 + 4 * (i + 1)) in E by lia.
      destruct (IH (i + 1) bs l a l' f ltac:(lia) ltac:(lia) L Se E F) as ((lay' & R1 & R2 & R3) & R4 & R5 & R6 & R7). cbv zeta in *.
      split; [|split; [exact R4|split; [exact R5|split; [|exact R7]]]].
      * exists (None :: lay'). destruct (R6 i ltac:(lia)) as [Q1 Q2]. split; [|split; [change (total_slots (None :: lay')) with (1 + total_slots lay'); lia|exact R3]].
        cbn [laid_out]. rewrite Q1, Q2 by lia. auto.
      * intros j Hj. destruct (R6 j Hj) as [Q1 Q2]. split; [exact Q1|]. intros Lt. apply Q2. lia.
Qed.

(** All registers of a function *)
Lemma rom_set rd wr nb rom l b l' f : In (rd, wr, nb) bar_kinds -> assign_rom (rom_of nb) rom l = Ok (b, l') ->
  let f' := write_allocs wr b f in
  f_id f' = f_id f /\ (forall x, other x -> f_attr f' x = f_attr f x) /\
  (forall j, 0 <= j < nb -> f_attr f' (fn_bar_mask j) = f_attr f (fn_bar_mask j) /\ f_attr f' (fn_bar j) = f_attr f (fn_bar j)) /\
  Forall (fun b => is_bar b = false) b.
Proof.
  intros W E. cbv zeta. destruct rom as [raw size]. unfold assign_rom in E. destruct (size =? 0).
  - apply Ok_inj, pair_equal_spec in E. destruct E as [<- <-]. cbn. split; [reflexivity|]. split; [reflexivity|]. split; [split; reflexivity|constructor].
  - destruct (take Mem size l) as [addr l1]. destruct (dword _) as [d|]; [|discriminate E]. cbn [bind] in E. apply Ok_inj, pair_equal_spec in E. destruct E as [<- <-].
    cbn [write_allocs fold_left a_reg a_dws write_dws]. destruct (kind_bars _ _ _ W) as [Hnb K]. split; [|split; [|split]].
    + rewrite (rom_write rd wr nb f d W). reflexivity.
    + intros x (_ & O1 & O2). rewrite (rom_write rd wr nb f d W). cbn [with_attr f_attr]. unfold aset. destruct (Pos.eqb_spec x fn_expansion_rom_enable); [contradiction|]. destruct (Pos.eqb_spec x fn_expansion_rom_addr); [contradiction|reflexivity].
    + intros j Hj. destruct (K j f Hj) as [_ K1]. destruct (K1 (rom_of nb / 4) d 15) as [K2 K3]. split; [exact K2|]. rewrite K3. replace (rom_of nb / 4 =? 4 + j) with false; [reflexivity|].
      destruct W as [W|[W|[]]]; injection W as <- <- <-; unfold rom_of; cbn [Z.eqb Pos.eqb]; lia.
    + constructor; [|constructor]. unfold is_bar. cbn [a_reg]. destruct W as [W|[W|[]]]; injection W as <- <- <-; reflexivity.
Qed.
Lemma filter_all {A} (g : A -> bool) l : Forall (fun x => g x = true) l -> filter g l = l.
Proof. induction 1 as [|x l H _ IH]; [reflexivity|]. cbn. rewrite H, IH. reflexivity. Qed.
Lemma filter_none {A} (g : A -> bool) l : Forall (fun x => g x = false) l -> filter g l = [].
Proof. induction 1 as [|x l H _ IH]; [reflexivity|]. cbn. rewrite H, IH. reflexivity. Qed.
Lemma fn_set rd wr nb lay p l own l' f : In (rd, wr, nb) bar_kinds -> p_type p = (if nb =? 6 then 0 else 1) -> laid_out (f_attr f) 0 lay -> total_slots lay = nb -> seen lay (p_bars p) ->
  assign_fn p l = Ok (own, l') -> Forall fits_in own ->
  let f' := write_allocs wr own f in
  bars_at f' nb own /\ f_id f' = f_id f /\ (forall x, other x -> f_attr f' x = f_attr f x).
Proof.
  intros W Ty L T Se E F. cbv zeta. assert (Ln : firstn (Z.to_nat nb) (p_bars p) = p_bars p).
  { apply firstn_all2. pose proof (seen_slots _ _ Se) as Z. unfold zlen in Z. lia. }
  assert (E' : exists a b l1, own = a ++ b /\ assign_bars (0x10 + 4 * 0) (p_bars p) l = Ok (a, l1) /\ assign_rom (rom_of nb) (p_rom p) l1 = Ok (b, l')).
  { unfold assign_fn in E. rewrite Ty in E. destruct W as [W|[W|[]]]; injection W as <- <- <-; cbn [Z.eqb Pos.eqb] in E; cbv zeta beta in E; try change (Z.to_nat 6) with 6%nat in Ln; try change (Z.to_nat 2) with 2%nat in Ln; rewrite Ln in E;
      destruct (assign_bars 0x10 (p_bars p) l) as [[a l1]|] eqn:Ea; try discriminate E; cbn [bind] in E;
      match type of E with context [assign_rom ?r _ _] => destruct (assign_rom r (p_rom p) l1) as [[b l2]|] eqn:Eb end; try discriminate E; cbn [bind] in E;
      apply Ok_inj, pair_equal_spec in E; destruct E as [<- <-]; exists a, b, l1; auto. }
  destruct E' as (a & b & l1 & -> & Ea & Eb). apply Forall_app in F. destruct F as [Fa _].
  destruct (bars_set rd wr nb W lay 0 (p_bars p) l a l1 f ltac:(lia) T L Se Ea Fa) as ((lay' & R1 & R2 & R3) & R4 & R5 & R6 & R7). cbv zeta in *.
  destruct (rom_set rd wr nb (p_rom p) l1 b l' (write_allocs wr a f) W Eb) as (S1 & S2 & S3 & S4). cbv zeta in *.
  assert (Ef : write_allocs wr (a ++ b) f = write_allocs wr b (write_allocs wr a f)) by (unfold write_allocs; apply fold_left_app). rewrite Ef.
  split; [|split; [congruence|intros x O; rewrite S2, R5 by exact O; reflexivity]].
  exists lay'. split; [|split; [lia|]].
  - apply (laid_frame (f_attr (write_allocs wr a f))); [|exact R1]. intros j Hj. destruct (S3 j ltac:(lia)) as [Q1 Q2]. auto.
  - rewrite filter_app, (filter_all _ _ R7), (filter_none _ _ S4), app_nil_r. exact R3.
Qed.
