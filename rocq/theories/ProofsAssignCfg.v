(** The assignment of addresses by configuration writes in an enumerated tree. *)
From Verif Require Import Base BaseProofs Bits SpecTlp ModelUtils ModelTlp ModelAttrs ModelCapList ModelConfig ModelFunction ModelHost ModelPci ModelRoute ModelEnum ModelAssign SpecBar SpecRoute SpecEnum SpecAssign ModelTree SpecTree
  ModelTreeCfg ModelScan SpecScan ModelEnumCfg SpecEnumCfg ModelAssignCfg SpecAssignCfg ProofsBar ProofsAssign ProofsAssignFacts ProofsEnum ProofsEnumFacts ProofsTree ProofsTreeIds ProofsTreeSet ProofsTreeAll ProofsAssignVia.
Require Import Sorted.

(** ** What is computed *)
Definition sized (e : entry) : Prop := match e with Some (_, n, _) => 0 <= n | None => True end.
Lemma laid_sized s : forall lay i, laid_out s i lay -> Forall sized lay.
Proof.
  induction lay as [|[[[k n] base]|] lay IH]; intros i L; constructor; cbn [laid_out] in L; [|exact (IH _ (proj2 L))|exact Logic.I|exact (IH _ (proj2 (proj2 L)))].
  destruct L as [(S & _) _]. unfold SpecBar.size_ok in S. cbn [sized]. destruct (is_io k); lia.
Qed.
Lemma low_bits raw k : raw mod (if is_io k then 4 else 16) = type_bits k -> Z.land raw (if is_io k then 3 else 15) = type_bits k.
Proof. intros M. rewrite <- M. destruct (is_io k); [change 3 with (Z.ones 2)|change 15 with (Z.ones 4)]; rewrite Z.land_ones by lia; reflexivity. Qed.
Lemma bars_alike : forall lay0 lay bs bs' reg L, Forall sized lay0 -> seen lay0 bs -> seen lay bs -> seen lay bs' -> assign_bars reg bs' L = assign_bars reg bs L.
Proof.
  intros lay0. remember (length lay0) as len eqn:El. assert (Le : (length lay0 <= len)%nat) by lia. clear El. revert lay0 Le.
  induction len as [|len IH]; intros lay0 Le lay bs bs' reg L Sz S0 S1 S2.
  { destruct lay0; [|cbn in Le; lia]. destruct bs; [|destruct S0]. destruct lay as [|[[[k n] base]|] lay]; [|destruct S1|destruct S1]. destruct bs'; [reflexivity|destruct S2]. }
  destruct lay0 as [|e lay0]. { destruct bs; [|destruct S0]. destruct lay as [|[[[k n] base]|] lay]; [|destruct S1|destruct S1]. destruct bs'; [reflexivity|destruct S2]. }
  cbn [length] in Le. pose proof (Forall_inv Sz) as Sz0. pose proof (Forall_inv_tail Sz) as Sz1. destruct bs as [|[raw size] bs]; [destruct e as [[[k n] base]|]; destruct S0|].
  destruct lay as [|e1 lay]; [destruct S1|]. destruct bs' as [|[raw' size'] bs']; [destruct e1 as [[[k n] base]|]; destruct S2|].
  destruct e as [[[k0 n0] base0]|], e1 as [[[k n] base]|]; cbn [seen sized] in *.
  - destruct S0 as (-> & P0 & M0 & S0), S1 as (E1 & P1 & M1 & S1), S2 as (-> & P2 & M2 & S2). rewrite <- E1 in *. assert (N0 : (2 ^ n0 =? 0) = false) by (apply Z.eqb_neq; pose proof (Z.pow_pos_nonneg 2 n0 ltac:(lia) Sz0); lia).
    destruct (low_kind raw k0 P0 M0) as [T0 T1]. destruct (low_kind raw k P1 M1) as [T2 T3]. destruct (low_kind raw' k P2 M2) as [T4 T5]. pose proof (low_bits raw k M1) as B1. pose proof (low_bits raw' k M2) as B2.
    assert (Ek : k0 = k). { rewrite T0 in T2. destruct k0 as [|w0 p0], k as [|w p]; cbn [is_io] in *; try discriminate T2; [reflexivity|]. destruct (T1 eq_refl) as [U1 U2], (T3 eq_refl) as [U3 U4]. rewrite U1 in U3. rewrite U2 in U4. cbn [is_wide] in U3. destruct w0, w; congruence. }
    subst k0. cbn [assign_bars]. rewrite N0, T2, T4. destruct k as [|wd pf]; cbn [is_io is_wide] in *.
    + rewrite B1, B2. destruct (take Io (2 ^ n0) L) as [addr L1]. destruct (dword _); [|reflexivity]. cbn [bind]. rewrite (IH lay0 ltac:(lia) lay bs bs' _ _ Sz1 S0 S1 S2). reflexivity.
    + destruct (T3 eq_refl) as [U3 U4], (T5 eq_refl) as [U5 U6]. rewrite U3, U4, U5, U6, B1, B2. destruct wd.
      * destruct bs as [|b1 bs]; [destruct S0|]. destruct bs' as [|b1' bs']; [destruct S2|]. destruct (take _ (2 ^ n0) L) as [addr L1]. rewrite (IH lay0 ltac:(lia) lay bs bs' _ _ Sz1 S0 S1 S2). reflexivity.
      * destruct (take Mem (2 ^ n0) L) as [addr L1]. destruct (dword _); [|reflexivity]. cbn [bind]. rewrite (IH lay0 ltac:(lia) lay bs bs' _ _ Sz1 S0 S1 S2). reflexivity.
  - destruct S0 as (-> & _), S1 as (_ & E & _). pose proof (Z.pow_pos_nonneg 2 n0 ltac:(lia) Sz0). lia.
  - destruct S0 as (-> & -> & S0), S1 as (E1 & P1 & M1 & S1), S2 as (-> & P2 & M2 & S2). rewrite <- E1. assert (Wd : is_wide k = false) by (destruct k as [|[] []]; cbn in M1; try discriminate M1; reflexivity). rewrite Wd in *.
    cbn [assign_bars Z.eqb]. exact (IH lay0 ltac:(lia) lay bs bs' _ _ Sz1 S0 S1 S2).
  - destruct S0 as (-> & -> & S0), S1 as (_ & _ & S1), S2 as (-> & -> & S2). cbn [assign_bars Z.eqb]. exact (IH lay0 ltac:(lia) lay bs bs' _ _ Sz1 S0 S1 S2).
Qed.
Lemma rom_alike reg raw raw' size L b L' : SpecAssign.size_ok 11 size -> assign_rom reg (raw, size) L = Ok (b, L') -> Forall (fun a => 0 <= a_addr a) b ->
  exists b', assign_rom reg (raw', size) L = Ok (b', L') /\ map spot b' = map spot b.
Proof.
  intros S E F. unfold assign_rom in *. destruct (size =? 0) eqn:Z0; [apply Ok_inj, pair_equal_spec in E; destruct E as [<- <-]; exists []; auto|].
  destruct S as [S|(n & Hn & ->)]; [lia|]. destruct (take Mem (2 ^ n) L) as [addr L1] eqn:Et. destruct (dword (Z.lor (Z.land raw 0x7ff) addr)) as [d|] eqn:Ed; [|discriminate E]. cbn [bind] in E.
  apply Ok_inj, pair_equal_spec in E. destruct E as [<- <-]. apply Forall_inv in F. cbn [a_addr] in F. unfold take in Et. injection Et as Ea _.
  assert (Dv : (2 ^ n | addr)) by (rewrite <- Ea; apply align_bounds; lia). change 0x7ff with (Z.ones 11) in *. rewrite (lor_low raw addr n 11) in Ed by (try lia; assumption). rewrite (lor_low raw' addr n 11) by (try lia; assumption).
  assert (D11 : (2 ^ 11 | addr)). { apply Z.divide_trans with (2 ^ n); [|exact Dv]. exists (2 ^ (n - 11)). rewrite <- Z.pow_add_r by lia. f_equal. lia. }
  unfold dword in *. change (2 ^ 11) with 2048 in *. change (2 ^ 32) with 4294967296 in *. destruct ((0 <=? addr + raw mod 2048) && (addr + raw mod 2048 <? 4294967296)) eqn:Q; [|discriminate Ed].
  assert (Q' : ((0 <=? addr + raw' mod 2048) && (addr + raw' mod 2048 <? 4294967296)) = true) by (destruct D11 as [q ->]; lia). rewrite Q'. cbn [bind]. eexists. split; [reflexivity|]. reflexivity.
Qed.
(** What is written to the registers has 32 bits, and the registers are where double words are. *)
Definition wordly (a : alloc) : Prop := a_reg a mod 4 = 0 /\ Forall (fun v => 0 <= v < 2 ^ 32) (a_dws a).
Lemma dword_range v d : dword v = Ok d -> 0 <= d < 2 ^ 32.
Proof. unfold dword. destruct (_ && _) eqn:Q; [|discriminate]. intros E. apply Ok_inj in E. subst d. lia. Qed.
Lemma bars_wordly : forall k bs reg L a L', (length bs <= k)%nat -> reg mod 4 = 0 -> assign_bars reg bs L = Ok (a, L') -> Forall wordly a.
Proof.
  induction k as [|k IH]; intros bs reg L a L' Le R E.
  { destruct bs; [|cbn in Le; lia]. cbn in E. apply Ok_inj, pair_equal_spec in E. destruct E as [<- _]. constructor. }
  destruct bs as [|[raw size] bs]; [cbn in E; apply Ok_inj, pair_equal_spec in E; destruct E as [<- _]; constructor|]. cbn [length] in Le. cbn [assign_bars] in E.
  destruct (size =? 0); [exact (IH bs (reg + 4) L a L' ltac:(lia) ltac:(lia) E)|]. destruct (Z.testbit raw 0).
  - destruct (take Io size L) as [addr L1]. destruct (dword _) as [d|] eqn:Ed; [|discriminate E]. cbn [bind] in E. destruct (assign_bars (reg + 4) bs L1) as [[r L2]|] eqn:Ea; [|discriminate E]. cbn [bind] in E.
    apply Ok_inj, pair_equal_spec in E. destruct E as [<- _]. constructor; [|exact (IH bs (reg + 4) L1 r L2 ltac:(lia) ltac:(lia) Ea)]. split; [exact R|]. constructor; [exact (dword_range _ _ Ed)|constructor].
  - destruct (Z.testbit raw 2).
    + destruct bs as [|b bs]; [discriminate E|]. destruct (take _ size L) as [addr L1]. destruct (assign_bars (reg + 8) bs L1) as [[r L2]|] eqn:Ea; [|discriminate E]. cbn [bind] in E. cbn [length] in Le.
      apply Ok_inj, pair_equal_spec in E. destruct E as [<- _]. constructor; [|exact (IH bs (reg + 8) L1 r L2 ltac:(lia) ltac:(lia) Ea)]. split; [exact R|].
      assert (M : forall v, 0 <= Z.land v 0xffffffff < 2 ^ 32) by (intros v; change 0xffffffff with (Z.ones 32); rewrite Z.land_ones by lia; apply Z.mod_pos_bound; reflexivity). repeat constructor; apply M.
    + destruct (take Mem size L) as [addr L1]. destruct (dword _) as [d|] eqn:Ed; [|discriminate E]. cbn [bind] in E. destruct (assign_bars (reg + 4) bs L1) as [[r L2]|] eqn:Ea; [|discriminate E]. cbn [bind] in E.
      apply Ok_inj, pair_equal_spec in E. destruct E as [<- _]. constructor; [|exact (IH bs (reg + 4) L1 r L2 ltac:(lia) ltac:(lia) Ea)]. split; [exact R|]. constructor; [exact (dword_range _ _ Ed)|constructor].
Qed.
Lemma rom_wordly reg rom L b L' : reg mod 4 = 0 -> assign_rom reg rom L = Ok (b, L') -> Forall wordly b.
Proof.
  intros R E. destruct rom as [raw size]. unfold assign_rom in E. destruct (size =? 0); [apply Ok_inj, pair_equal_spec in E; destruct E as [<- _]; constructor|].
  destruct (take Mem size L) as [addr L1]. destruct (dword _) as [d|] eqn:Ed; [|discriminate E]. cbn [bind] in E. apply Ok_inj, pair_equal_spec in E. destruct E as [<- _].
  constructor; [|constructor]. split; [exact R|]. constructor; [exact (dword_range _ _ Ed)|constructor].
Qed.
Lemma fn_wordly p L own L' : assign_fn p L = Ok (own, L') -> Forall wordly own.
Proof.
  intros E. unfold assign_fn in E. cbv zeta in E. destruct (p_type p =? 0); [|destruct (p_type p =? 1)].
  3:{ apply Ok_inj, pair_equal_spec in E. destruct E as [<- _]. constructor. }
  all: destruct (assign_bars 0x10 _ L) as [[a L1]|] eqn:Ea; [|discriminate E]; cbn [bind] in E; destruct (assign_rom _ (p_rom p) L1) as [[b L2]|] eqn:Eb; [|discriminate E]; cbn [bind] in E; apply Ok_inj, pair_equal_spec in E; destruct E as [<- _];
    apply Forall_app; split; [eapply bars_wordly; [apply le_n| |exact Ea]|eapply rom_wordly; [|exact Eb]]; reflexivity.
Qed.
Definition rom_of_other (p p' : pfn) : pfn := mkPf (p_id p) (p_type p) (p_multi p) (p_exp p) (p_bars p) (p_rom p').
Lemma fn_alike p' p s lay0 L own L' : alike p' p -> laid_out s 0 lay0 -> seen lay0 (p_bars p) -> total_slots lay0 = (if p_type p =? 1 then 2 else 6) -> p_type p = 0 \/ p_type p = 1 -> SpecAssign.size_ok 11 (snd (p_rom p)) ->
  assign_fn p L = Ok (own, L') -> Forall (fun a => 0 <= a_addr a) own ->
  exists own', assign_fn p' L = Ok (own', L') /\ assign_fn (rom_of_other p p') L = Ok (own', L') /\ map spot own' = map spot own.
Proof.
  intros (_ & A2 & _ & _ & A5 & lay & T & S2 & S1) La S0 T0 Ty Ro E F. unfold assign_fn in *. cbv zeta in *. cbn [rom_of_other p_type p_bars p_rom]. rewrite A2 in *. pose proof (seen_slots _ _ S0) as Z0. pose proof (seen_slots _ _ S2) as Z2. unfold zlen in *.
  assert (Go : forall cnt reg, total_slots lay0 = Z.of_nat cnt -> total_slots lay = Z.of_nat cnt ->
    ('(a, l) <- assign_bars 0x10 (firstn cnt (p_bars p)) L ;; '(b, l) <- assign_rom reg (p_rom p) l ;; Ok (a ++ b, l)) = Ok (own, L') ->
    exists own', ('(a, l) <- assign_bars 0x10 (firstn cnt (p_bars p')) L ;; '(b, l) <- assign_rom reg (p_rom p') l ;; Ok (a ++ b, l)) = Ok (own', L') /\
      ('(a, l) <- assign_bars 0x10 (firstn cnt (p_bars p)) L ;; '(b, l) <- assign_rom reg (p_rom p') l ;; Ok (a ++ b, l)) = Ok (own', L') /\ map spot own' = map spot own).
  { intros cnt reg C1 C2 E'. rewrite (firstn_all2 (p_bars p)) in E' by lia. rewrite (firstn_all2 (p_bars p)), (firstn_all2 (p_bars p')) by lia. rewrite (bars_alike lay0 lay (p_bars p) (p_bars p') 0x10 L (laid_sized _ _ _ La) S0 S1 S2).
    destruct (assign_bars 0x10 (p_bars p) L) as [[a L1]|]; [|discriminate E']. cbn [bind] in *. destruct (p_rom p) as [raw size], (p_rom p') as [raw' size']. cbn [snd] in *. subst size'.
    destruct (assign_rom reg (raw, size) L1) as [[b L2]|] eqn:Eb; [|discriminate E']. cbn [bind] in E'. apply Ok_inj, pair_equal_spec in E'. destruct E' as [<- <-]. apply Forall_app in F. destruct F as [_ F].
    destruct (rom_alike reg raw raw' size L1 b L2 Ro Eb F) as (b' & -> & Sb). cbn [bind]. exists (a ++ b'). split; [reflexivity|]. split; [reflexivity|]. rewrite !map_app, Sb. reflexivity. }
  destruct Ty as [Ty|Ty]; rewrite Ty in *; cbn [Z.eqb Pos.eqb] in *; apply Go; auto.
Qed.
Lemma spot_fits own own' : map spot own' = map spot own -> Forall fits_in own -> Forall fits_in own'.
Proof.
  revert own'. induction own as [|a own IH]; intros [|a' own'] E F; try discriminate E; constructor; cbn [map] in E.
  - injection E as E1 E2 E3 E4 E5 _. apply Forall_inv in F. unfold fits_in in *. rewrite E2, E4, E5. exact F.
  - apply IH; [|exact (Forall_inv_tail F)]. injection E. auto.
Qed.
Lemma spot_bars f nb own own' : map spot own' = map spot own -> bars_at f nb own' -> bars_at f nb own.
Proof.
  intros E (lay & A & B & C). exists lay. split; [exact A|]. split; [exact B|]. rewrite C. clear - E. revert own' E. induction own as [|a own IH]; intros [|a' own'] E; try discriminate E; [reflexivity|]. cbn [map filter] in *.
  assert (E1 : spot a' = spot a) by (injection E as; unfold spot; congruence). assert (E2 : map spot own' = map spot own) by (injection E; auto). assert (E3 : is_bar a' = is_bar a) by (unfold is_bar; injection E1 as -> _ _ _ _; reflexivity).
  rewrite E3. destruct (is_bar a); cbn [map]; [rewrite E1|]; rewrite (IH _ E2); reflexivity.
Qed.
