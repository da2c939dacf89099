(** What configuration accesses of the host leave of a function, as enumeration (SpecEnumCfg.v) sees it. *)
From Verif Require Import Base BaseProofs Bits ModelUtils ModelAttrs ModelCaps ModelCapList ModelConfig ModelEnum ModelPciCaps ModelDriver ModelTree ModelTreeCfg
  SpecRegs SpecConfig SpecCaps SpecHost SpecBar SpecCapList SpecCapFn SpecPciCaps SpecRoute SpecTree SpecTreeCfg SpecScan SpecEnumCfg
  ProofsConfigLow ProofsConfigTop ProofsHost ProofsBar ProofsCapFn ProofsCapWalk ProofsPciCaps ProofsProbe ProofsDriverCtl ProofsTreeCfgAll ProofsScanHw.

Section Wrs.
Context (br : bool) (dev : pcie_id).
(** [g] after accesses of the host that write registers in [P] only *)
Inductive wrs (P : Z -> Prop) (g : fnc) : fnc -> Prop :=
| WRefl : wrs P g g
| WId g1 : wrs P g g1 -> wrs P g (with_id dev g1)
| WWr g1 reg x be : wrs P g g1 -> P reg -> 0 <= be < 16 -> wrs P g (cfg_wr br reg x be (with_id dev g1)).
Lemma wrs_trans P g1 g2 g3 : wrs P g1 g2 -> wrs P g2 g3 -> wrs P g1 g3.
Proof. intros H K. induction K; [exact H|constructor; assumption|constructor; assumption]. Qed.
Lemma wrs_mono (P Q : Z -> Prop) g g' : (forall r, P r -> Q r) -> wrs P g g' -> wrs Q g g'.
Proof. intros M H. induction H; constructor; auto. Qed.
Lemma wr_id reg x be g : f_id (cfg_wr br reg x be g) = f_id g.
Proof. exact (kinds_wr_id _ _ _ (kind_in br) reg x be g). Qed.
Lemma wrs_id P g g' : wrs P g g' -> g' = g \/ f_id g' = dev.
Proof. intros H. destruct H; [left; reflexivity|right; reflexivity|right; rewrite wr_id; reflexivity]. Qed.
Lemma wrs_at P g g' : at_id dev g -> wrs P g g' -> at_id dev g'.
Proof. intros A H. destruct (wrs_id P g g' H) as [-> | E]; [exact A|]. unfold at_id. rewrite E. split; reflexivity. Qed.
Lemma kind_space : In (cfg_rd br, cfg_wr br) spaces.
Proof. exact (kinds_spaces _ _ _ (kind_in br)). Qed.
(** ** The capabilities stay in place. *)
Definition placed (g g' : fnc) : Prop :=
  f_caps g' = f_caps g /\ f_ecaps g' = f_ecaps g /\ forall j, pos_ok (f_heap g j) (f_heap g' j) /\ c_kind (f_heap g' j) = c_kind (f_heap g j) /\ c_id (f_heap g' j) = c_id (f_heap g j).
Lemma placed_refl g : placed g g.
Proof. split; [reflexivity|]. split; [reflexivity|]. intros j. repeat split. Qed.
Lemma placed_trans g1 g2 g3 : placed g1 g2 -> placed g2 g3 -> placed g1 g3.
Proof.
  intros (A & B & C) (A' & B' & C'). split; [congruence|]. split; [congruence|]. intros j. destruct (C j) as ((P1 & P2 & P3) & K & I), (C' j) as ((P1' & P2' & P3') & K' & I'). unfold pos_ok. repeat split; congruence.
Qed.
Lemma placed_wr reg x be g : placed g (cfg_wr br reg x be g).
Proof. destruct (spaces_keep _ _ kind_space reg x be g) as (A & B & _ & C). split; [exact A|]. split; [exact B|]. intros j. destruct (C j) as (P & K & I & _). auto. Qed.
Lemma wrs_placed P g g' : wrs P g g' -> placed g g'.
Proof.
  intros H. induction H as [|g1 H IH|g1 reg x be H IH R B]; [apply placed_refl|exact IH|]. exact (placed_trans g g1 _ IH (placed_wr reg x be (with_id dev g1))).
Qed.
Lemma placed_off g g' j : placed g g' -> off (f_heap g' j) = off (f_heap g j) /\ c_len (f_heap g' j) = c_len (f_heap g j).
Proof. intros (_ & _ & C). exact (pos_dims _ _ (proj1 (C j))). Qed.
Lemma placed_listing g g' : placed g g' -> listing g' = listing g.
Proof.
  intros H. pose proof H as (A & B & C). unfold listing, entries. f_equal; cbn [caps_of]; rewrite ?A, ?B; apply map_ext; intros j; destruct (placed_off g g' j H) as [-> _]; destruct (C j) as (_ & _ & E); unfold cap_ident; rewrite E; reflexivity.
Qed.
(** ** Numbers and header *)
Lemma wrs_steady P g g' : (br = true -> ~ P 6) -> wrs P g g' -> steady br g g'.
Proof.
  intros N H. induction H as [|g1 H IH|g1 reg x be H IH R B]; [apply steady_refl|exact IH|]. refine (steady_trans br _ _ _ IH _). split.
  - intros a I. rewrite (wr_fixed br reg x be (with_id dev g1) a I). reflexivity.
  - intros E. assert (reg <> 6) by (intros ->; exact (N E R)). clear IH. rewrite E. cbn [cfg_wr]. rewrite keeps_pri, keeps_buses by assumption. split; reflexivity.
Qed.
Lemma wrs_looks P x g g' : (br = true -> ~ P 6) -> at_id dev g -> looks x g br -> wrs P g g' -> looks x g' br.
Proof.
  intros N A L H. destruct (wrs_id P g g' H) as [-> | E]; [exact L|]. destruct (wrs_steady P g g' N H) as [F B]. apply (looks_keep x g br g' L); [|exact F|exact B].
  destruct L as (D & Fu & _). destruct A as [A1 A2]. rewrite E. destruct dev as [bb dd ff]. cbn in *. congruence.
Qed.
(** ** BARs and ROM *)
Lemma net_kinds : In (cfg_rd br, cfg_wr br, net_bars br) bar_kinds.
Proof. destruct br; cbn; auto. Qed.
Lemma wrs_bars P g g' : (forall j, 0 <= j < net_bars br -> ~ P (4 + j)) -> wrs P g g' -> forall j, 0 <= j < net_bars br -> f_attr g' (fn_bar j) = f_attr g (fn_bar j) /\ f_attr g' (fn_bar_mask j) = f_attr g (fn_bar_mask j).
Proof.
  intros N H j Hj. induction H as [|g1 H IH|g1 reg x be H IH R B]; [auto|exact IH|]. destruct (kind_bars _ _ _ net_kinds) as [_ K]. destruct (K j (with_id dev g1) Hj) as [_ Kj]. destruct (Kj reg x be) as [-> ->].
  replace (reg =? 4 + j) with false by (symmetry; apply Z.eqb_neq; intros ->; exact (N j Hj R)). exact IH.
Qed.
Lemma wrs_shows_bars P g g' bs : (forall j, 0 <= j < net_bars br -> ~ P (4 + j)) -> wrs P g g' -> shows_bars br g bs -> shows_bars br g' bs.
Proof.
  intros N H (lay & L & T & S). exists lay. split; [|split; assumption]. apply (laid_frame (f_attr g)); [|exact L]. intros j Hj. apply (wrs_bars P g g' N H). rewrite <- T. lia.
Qed.
Lemma wr_rom reg x be g : reg <> rom_of (net_bars br) / 4 -> f_attr (cfg_wr br reg x be g) fn_expansion_rom_addr = f_attr g fn_expansion_rom_addr /\ f_attr (cfg_wr br reg x be g) fn_expansion_rom_addr_mask = f_attr g fn_expansion_rom_addr_mask.
Proof.
  intros N. assert (FN : f_attr (fn_write reg x be g) fn_expansion_rom_addr = f_attr g fn_expansion_rom_addr /\ f_attr (fn_write reg x be g) fn_expansion_rom_addr_mask = f_attr g fn_expansion_rom_addr_mask).
  { unfold fn_write. split; repeat match goal with |- f_attr (if ?b then _ else _) _ = _ => destruct b; [unfold with_attr; cbn [f_attr]; unfold when; repeat match goal with |- context [if bit ?x ?y then _ else _] => destruct (bit x y) end; reflexivity|] end; reflexivity. }
  destruct br; cbn [cfg_wr net_bars] in *.
  - change (rom_of 2 / 4) with 14 in N. rewrite br_write_eq. unfold br_write_alt. replace (reg =? 14) with false by lia.
    split; repeat match goal with |- f_attr (if ?b then _ else _) _ = _ => destruct b; [unfold with_attr; cbn [f_attr]; unfold when; repeat match goal with |- context [if bit ?x ?y then _ else _] => destruct (bit x y) end; reflexivity|] end; apply FN.
  - change (rom_of 6 / 4) with 12 in N. unfold ep_write. replace (reg =? 12) with false by lia.
    split; repeat match goal with |- f_attr (if ?b then _ else _) _ = _ => destruct b; [unfold with_attr; cbn [f_attr]; unfold when; repeat match goal with |- context [if bit ?x ?y then _ else _] => destruct (bit x y) end; reflexivity|] end; apply FN.
Qed.
Lemma wrs_shows_rom P g g' size : ~ P (rom_of (net_bars br) / 4) -> wrs P g g' -> shows_rom g size -> shows_rom g' size.
Proof.
  intros N H (a & base & R & M). exists a, base. split; [|exact M]. unfold rom_at in *.
  assert (E : f_attr g' fn_expansion_rom_addr = f_attr g fn_expansion_rom_addr /\ f_attr g' fn_expansion_rom_addr_mask = f_attr g fn_expansion_rom_addr_mask); [|destruct E as [-> ->]; exact R].
  clear R M. induction H as [|g1 H IH|g1 reg x be H IH R B]; [auto|exact IH|]. destruct (wr_rom reg x be (with_id dev g1)) as [-> ->]; [intros ->; contradiction|exact IH].
Qed.
(** ** Histories *)
Lemma wr_with_id i reg x be g : cfg_wr br reg x be (with_id i g) = with_id i (cfg_wr br reg x be g).
Proof.
  assert (FN : fn_write reg x be (with_id i g) = with_id i (fn_write reg x be g)).
  { unfold fn_write. repeat match goal with |- (if ?b then _ else _) = _ => destruct b; [reflexivity|] end; reflexivity. }
  destruct br; cbn [cfg_wr]; [rewrite !br_write_eq; unfold br_write_alt|unfold ep_write]; repeat match goal with |- (if ?b then _ else _) = _ => destruct b; [reflexivity|] end; exact FN.
Qed.
Lemma sound_id fuel i g : sound fuel br g -> sound fuel br (with_id i g).
Proof. intros (f0 & ops & f1 & A & B & C & D & E & F). exists f0, ops, f1. repeat (split; [assumption|]). split; [|exact F]. rewrite E. reflexivity. Qed.
Lemma sound_wr fuel reg x be g : sound fuel br g -> sound fuel br (cfg_wr br reg x be g).
Proof.
  intros (f0 & ops & f1 & A & B & C & D & E & F). exists f0, (ops ++ [FWrite reg x be]), (cfg_wr br reg x be f1). pose proof (placed_wr reg x be f1) as Pl. pose proof Pl as (P1 & P2 & _).
  split; [exact A|]. split; [intros i o I; apply in_app_or in I; destruct I as [I|[I|[]]]; [exact (B i o I)|discriminate I]|]. split; [rewrite frun_snoc, C; reflexivity|].
  split; [|split; [rewrite wr_id; rewrite E at 1; apply wr_with_id|rewrite P1, P2; exact F]].
  destruct D as [D1 D2 D3 D4 D5 D6 D7]. constructor; auto.
  - intros ext. rewrite existsb_app, (D3 ext). destruct ext; reflexivity.
  - intros ext. apply (fits_along_intro ext _ ops f0 _ f1 C (D4 ext)). destruct ext; exact I.
  - intros i. rewrite P2, (proj1 (placed_off _ _ i Pl)). apply D5.
  - intros i. rewrite P1, (proj1 (placed_off _ _ i Pl)). apply D6.
  - intros i. rewrite P2, (proj1 (placed_off _ _ i Pl)). apply D7.
Qed.
Lemma wrs_sound fuel P g g' : sound fuel br g -> wrs P g g' -> sound fuel br g'.
Proof. intros S H. induction H; [exact S|apply sound_id; assumption|apply sound_wr, sound_id; assumption]. Qed.
(** ** Registers *)
Lemma wrs_reg P g g' r v rw w1c : wrs P g g' -> ~ P r -> cfg_rd br g r = Ok (Some v) -> masks_of br g r = Some (rw, w1c, 0) -> cfg_rd br g' r = Ok (Some v) /\ masks_of br g' r = Some (rw, w1c, 0).
Proof.
  intros H N V M. pose proof (kinds_id _ _ _ (kind_in br)) as KI. induction H as [|g1 H IH|g1 reg x be H IH R B]; [auto|split; [rewrite (proj1 (KI dev g1 r)); apply IH|rewrite (proj2 (KI dev g1 r)); apply IH]|].
  destruct IH as [I1 I2]. destruct (kinds_follow _ _ _ (kind_in br) (with_id dev g1) reg x be r v rw w1c 0 B) as (v' & V' & M' & E); [rewrite (proj1 (KI dev g1 r)); exact I1|rewrite (proj2 (KI dev g1 r)); exact I2|].
  replace (r =? reg) with false in E by (symmetry; apply Z.eqb_neq; intros ->; contradiction). subst v'. split; [exact V'|exact M'].
Qed.
Lemma wrs_ro P g g' r v : wrs P g g' -> cfg_rd br g r = Ok (Some v) -> masks_of br g r = Some (0, 0, 0) -> cfg_rd br g' r = Ok (Some v) /\ masks_of br g' r = Some (0, 0, 0).
Proof.
  intros H V M. pose proof (kinds_id _ _ _ (kind_in br)) as KI. induction H as [|g1 H IH|g1 reg x be H IH R B]; [auto|split; [rewrite (proj1 (KI dev g1 r)); apply IH|rewrite (proj2 (KI dev g1 r)); apply IH]|].
  destruct IH as [I1 I2]. destruct (kinds_follow _ _ _ (kind_in br) (with_id dev g1) reg x be r v 0 0 0 B) as (v' & V' & M' & E); [rewrite (proj1 (KI dev g1 r)); exact I1|rewrite (proj2 (KI dev g1 r)); exact I2|].
  assert (v' = v); [|subst v'; split; [exact V'|exact M']]. destruct (r =? reg); [|exact E]. apply Z.bits_inj'. intros i Hi. rewrite (E i Hi (Z.bits_0 i)). unfold upd_bit. rewrite !Z.bits_0. destruct (Z.testbit be _); reflexivity.
Qed.
End Wrs.

(** ** The PCI Express capability *)
Section Exp.
Context (fuel : nat) (br : bool) (g : fnc).
Hypothesis So : sound fuel br g.
Lemma sound_sep : disjoint (f_heap g) (f_caps g) /\ forall i, In i (f_caps g) -> 16 <= off (f_heap g i) < 64 /\ 0 < c_len (f_heap g i).
Proof.
  destruct So as (f0 & ops & f1 & A & B & C & D & E & _). rewrite E. change (f_heap (with_id (f_id g) f1)) with (f_heap f1). change (f_caps (with_id (f_id g) f1)) with (f_caps f1). clear E.
  split; [exact (caps_disjoint _ _ f0 ops f1 false (kind_space br) A B C (ord_fits _ _ _ _ D false))|]. intros i Hi. split; [exact (ord_place _ _ _ _ D i Hi)|].
  destruct (caps_static _ _ _ _ _ i (kind_space br) A B C) as (_ & _ & _ & ->). apply A.
Qed.
(** The header of any capability can be read. *)
Lemma sound_head i : In i (f_caps g) -> exists v, cfg_rd br g (off (f_heap g i)) = Ok (Some v) /\ 0 <= v < 2 ^ 32.
Proof.
  intros Hi. destruct sound_sep as [Sep Pl]. destruct (Pl i Hi) as [P1 P2]. rewrite (proj1 (space_read _ _ g _ (kind_space br)) P1).
  assert (Er : caps_read (f_heap g) (f_caps g) (off (f_heap g i)) = cap_read (f_heap g i) 0) by (rewrite <- (owner_read (f_heap g) (f_caps g)) by (auto; lia); f_equal; lia).
  rewrite Er. clear Er. destruct So as (f0 & ops & f1 & A & B & C & D & E & _). rewrite E in Hi |- *. change (f_heap (with_id (f_id g) f1)) with (f_heap f1). change (f_caps (with_id (f_id g) f1)) with (f_caps f1) in Hi. clear E P1 P2 Pl Sep.
  unfold cap_read. rewrite (caps_class _ _ _ _ _ false i (kind_space br) A B C Hi). change (0 =? 0) with true. cbv iota.
  pose proof (ord_headed _ _ _ _ D i) as Q. destruct (caps_static _ _ _ _ _ i (kind_space br) A B C) as (K1 & _ & _ & _). unfold headed in Q. rewrite <- K1, (caps_class _ _ _ _ _ false i (kind_space br) A B C Hi) in Q. destruct Q as [Q|Q]; [discriminate Q|].
  specialize (Q (c_attr (f_heap f1 i))). destruct (kind_read _ _ 0) as [v|]; [|congruence]. eexists. split; [reflexivity|]. apply legacy_head.
  destruct (caps_no_dereg _ _ _ _ _ false (kind_space br) A B C (ord_stay _ _ _ _ D false)) as [Ch _]. cbn [caps_of] in Ch. revert i Hi K1 Q. intros i Hi _ _.
  apply (chained_bound (f_heap f1) (f_caps f1) 256 Ch); [|lia|exact Hi]. intros j Hj. pose proof (ord_place _ _ _ _ D j Hj). lia.
Qed.
Lemma exp_made i : In i (f_caps g) -> c_kind (f_heap g i) = KPcie -> off (f_heap g i) + c_len (f_heap g i) <= 64 -> get_capability_offset EXP (listing g) = Some (4 * off (f_heap g i)) -> exp_at (listing g) g i.
Proof. intros A B C D. destruct sound_sep as [S P]. constructor; auto. apply P, A. Qed.
End Exp.
Lemma wrs_exp fuel br dev P g g' e v : sound fuel br g -> (forall i, get_capability_offset EXP (listing g) = Some (4 * off (f_heap g i)) -> ~ P (off (f_heap g i) + 2)) -> wrs br dev P g g' -> shows_exp br g e v -> shows_exp br g' e v.
Proof.
  intros So N H X. pose proof (wrs_placed br dev P g g' H) as Pl. unfold shows_exp in *. rewrite (placed_listing g g' Pl). destruct e as [[ty mpss]|]; [|exact X].
  destruct X as (i & v0 & v1 & v2 & I & K & L & En & G & R0 & T0 & R1 & T1 & R2 & T2). exists i, v0, v1, v2. destruct (placed_off g g' i Pl) as [-> ->]. destruct Pl as (C & _ & Hh). rewrite C. destruct (Hh i) as (_ & -> & _).
  pose proof (exp_made fuel br g So i I K En G) as E.
  assert (M : forall r, 0 <= r < c_len (f_heap g i) -> masks_of br g (off (f_heap g i) + r) = Some (pcie_rw r, pcie_w1c r, tab [(6, 0x01000800); (12, 0x80200000)] r)).
  { intros r Hr. exact (proj2 (exp_reg _ _ _ (fun _ => 0) (kind_in br) (listing g) g i r E Hr)). }
  pose proof (M 0 ltac:(lia)) as M0. pose proof (M 1 ltac:(lia)) as M1. pose proof (M 2 ltac:(lia)) as M2. rewrite Z.add_0_r in M0.
  change (pcie_rw 0, pcie_w1c 0, tab [(6, 0x01000800); (12, 0x80200000)] 0) with (0, 0, 0) in M0. change (pcie_rw 1, pcie_w1c 1, tab [(6, 0x01000800); (12, 0x80200000)] 1) with (0, 0, 0) in M1.
  change (tab [(6, 0x01000800); (12, 0x80200000)] 2) with 0 in M2. repeat (split; [assumption|]).
  split; [exact (proj1 (wrs_ro br dev P g g' _ v0 H R0 M0))|]. split; [exact T0|]. split; [exact (proj1 (wrs_ro br dev P g g' _ v1 H R1 M1))|]. split; [exact T1|]. split; [|exact T2].
  exact (proj1 (wrs_reg br dev P g g' _ v2 _ _ H (N i G) R2 M2)).
Qed.
(** ** All of it *)
Definition clear_of (br : bool) (g : fnc) (P : Z -> Prop) : Prop :=
  (br = true -> ~ P 6) /\ (forall j, 0 <= j < net_bars br -> ~ P (4 + j)) /\ ~ P (rom_of (net_bars br) / 4) /\
  (forall i, get_capability_offset EXP (listing g) = Some (4 * off (f_heap g i)) -> ~ P (off (f_heap g i) + 2)).
Lemma wrs_told fuel br dev P x g g' : clear_of br g P -> at_id dev g -> wrs br dev P g g' -> told fuel x g br -> told fuel x g' br.
Proof.
  intros (C1 & C2 & C3 & C4) A H [T1 T2 T3 T4 T5 T6]. constructor.
  - exact (wrs_looks br dev P x g g' C1 A T1 H).
  - exact T2.
  - exact (wrs_shows_bars br dev P g g' _ C2 H T3).
  - exact (wrs_shows_rom br dev P g g' _ C3 H T4).
  - exact (wrs_sound br dev fuel P g g' T5 H).
  - exact (wrs_exp fuel br dev P g g' _ _ T5 C4 H T6).
Qed.
