(** The accesses of enumeration to a function of the tree: what they return and what the function is for enumeration afterwards. *)
From Verif Require Import Base BaseProofs Bits SpecTlp ModelUtils ModelTlp ModelAttrs ModelCaps ModelCapList ModelConfig ModelFunction ModelHost ModelPci ModelChan ModelEnum ModelPciCaps ModelDriver SpecDriver ModelTree ModelTreeCfg ModelEnumCfg
  SpecRegs SpecConfig SpecCaps SpecHost SpecBar SpecCapList SpecCapFn SpecPciCaps SpecRoute SpecTree SpecTreeCfg ModelScan SpecScan SpecEnumCfg
  ProofsUtils ProofsConfigLow ProofsConfigTop ProofsHost ProofsBar ProofsCapFn ProofsCapWalk ProofsPciCaps ProofsProbe ProofsDriverCtl ProofsTreeUpAll ProofsTreeCfgAll ProofsScan ProofsScanAll ProofsScanHw ProofsScanBus
  ProofsEnumPar ProofsEnumWr ProofsEnumVia ProofsEnumWhole.
From Verif Require ModelMsi SpecAssign.

(** ** The BARs that the host remembers *)
Definition span (i : Z) (n : nat) : list Z := map (fun k => i + Z.of_nat k) (List.seq 0 n).
Lemma span_next i n : span i (S n) = i :: span (i + 1) n.
Proof. unfold span. cbn [List.seq map]. f_equal; [lia|]. rewrite <- seq_shift, map_map. apply map_ext. intros k. lia. Qed.
Lemma slots_pos lay : 0 <= total_slots lay.
Proof. induction lay as [|e r IH]; cbn [total_slots fold_right]; [lia|]. fold (total_slots r). destruct e as [[[k n] b]|]; cbn [entry_slots]; [unfold slots; destruct (is_wide k)|]; lia. Qed.
Lemma content_low k n base : size_ok k n -> base_ok k n base -> 0 <= content k base /\ content k base mod (if is_io k then 4 else 16) = type_bits k.
Proof.
  intros S [B1 B2]. assert (T : 0 <= type_bits k < (if is_io k then 4 else 16)) by (destruct k as [|[|] [|]]; cbn; lia). split; [unfold content; destruct k as [|[|] [|]]; cbn [is_io] in T; lia|].
  unfold content, size_ok in *. set (m := if is_io k then 2 else 4) in *. assert (M : (if is_io k then 4 else 16) = 2 ^ m) by (subst m; destruct (is_io k); reflexivity). rewrite M in *.
  assert (E : 2 ^ n = 2 ^ (n - m) * 2 ^ m) by (rewrite <- Z.pow_add_r by (subst m; destruct (is_io k); lia); f_equal; lia).
  assert (P : 0 < 2 ^ m) by (subst m; destruct (is_io k); reflexivity). assert (Q : 0 < 2 ^ n) by (apply Z.pow_pos_nonneg; subst m; destruct (is_io k); lia).
  pose proof (Z.div_mod base (2 ^ n) ltac:(lia)) as D. rewrite B2, Z.add_0_r in D. rewrite D, E.
  replace (2 ^ (n - m) * 2 ^ m * (base / (2 ^ (n - m) * 2 ^ m)) + type_bits k) with (type_bits k + (2 ^ (n - m) * (base / (2 ^ (n - m) * 2 ^ m))) * 2 ^ m) by ring.
  rewrite Z.mod_add by lia. apply Z.mod_small. exact T.
Qed.
Lemma reported_seen p s : forall lay i n, laid_out s i lay -> reported p i lay -> total_slots lay = Z.of_nat n -> seen lay (map (fun j => (or0 (p_raw p j), or0 (p_size p j))) (span i n)).
Proof.
  induction lay as [|e r IH]; intros i n L [W U] T.
  - cbn in T. replace n with O by lia. exact I.
  - cbn [total_slots fold_right] in T. fold (total_slots r) in T. pose proof (slots_pos r) as Sp. destruct e as [[[k m] base]|]; cbn [entry_slots laid_out windows unused] in *.
    + destruct L as [(Z1 & Z2 & _) L]. pose proof (content_low k m base Z1 Z2) as [C1 C2]. destruct (W i k m base (or_introl eq_refl)) as (W1 & W2 & W3).
      assert (Rr : reported p (i + slots k) r) by (split; [intros j k' n' b' J; apply W; right; exact J|exact U]).
      destruct n as [|n]; [unfold slots in T; destruct (is_wide k); lia|]. rewrite span_next. cbn [map seen]. rewrite W1. cbn [or0]. split; [reflexivity|]. unfold slots in *. destruct (is_wide k) eqn:Wk.
      * rewrite (W3 eq_refl). cbn [or0]. assert (Io : is_io k = false) by (destruct k; [discriminate Wk|reflexivity]). rewrite Io in *. destruct n as [|n]; [lia|]. rewrite span_next. cbn [map].
        set (c := content k base) in *. pose proof (Z.mod_pos_bound c (2 ^ 32) ltac:(lia)) as B. split; [lia|]. split; [|replace (i + 1 + 1) with (i + 2) by lia; apply IH; [exact L|exact Rr|lia]].
        clear - C2 B. change (2 ^ 32) with 4294967296 in *. lia.
      * rewrite (W2 eq_refl). cbn [or0]. split; [exact C1|]. split; [exact C2|]. apply IH; [exact L|exact Rr|lia].
    + destruct (U i (or_introl eq_refl)) as [U1 U2]. destruct n as [|n]; [lia|]. rewrite span_next. cbn [map seen]. rewrite U1, U2. cbn [or0]. split; [reflexivity|]. split; [reflexivity|].
      apply IH; [exact (proj2 (proj2 L))| |lia]. split; [exact W|]. intros j J. apply U. right. exact J.
Qed.
Lemma zrange_span n : zrange n = span 0 (Z.to_nat n).
Proof. unfold zrange, span. apply map_ext. intros k. lia. Qed.
Lemma seen_same : forall l l' bs, Forall2 same_entry l l' -> (seen l bs -> seen l' bs) /\ total_slots l' = total_slots l.
Proof.
  intros l l' bs F. revert bs. induction F as [|e e' r r' E F IH]; intros bs; [auto|]. cbn [total_slots fold_right]. fold (total_slots r') (total_slots r). destruct e as [[[k n] b]|], e' as [[[k' n'] b']|]; cbn [same_entry] in E; try contradiction.
  - destruct E as (-> & -> & _). cbn [entry_slots]. split; [|rewrite (proj2 (IH [])); reflexivity]. destruct bs as [|[raw size] bs]; [auto|]. cbn [seen]. destruct (is_wide k).
    + destruct bs as [|c bs]; [auto|]. intros (A & B & C & D). repeat (split; [assumption|]). exact (proj1 (IH bs) D).
    + intros (A & B & C & D). repeat (split; [assumption|]). exact (proj1 (IH bs) D).
  - cbn [entry_slots]. split; [|rewrite (proj2 (IH [])); reflexivity]. destruct bs as [|[raw size] bs]; [auto|]. cbn [seen]. intros (A & B & D). repeat (split; [assumption|]). exact (proj1 (IH bs) D).
Qed.

(** ** Clearing an enable bit *)
Lemma enable_fn fuel br tg crs dev g j co id bit : sound fuel br g -> at_id dev g -> In j (f_caps g) -> co id = 4 * off (f_heap g j) ->
  exists g', ModelMsi.set_enable (config_read (cfg_deliver (cfg_rd br) (cfg_wr br) tg) crs dev) (config_write (cfg_deliver (cfg_rd br) (cfg_wr br) tg) dev) co id bit false g = Ok g' /\
    sound fuel br g' /\ at_id dev g' /\ placed g g'.
Proof.
  intros So A J E. destruct (sound_head fuel br g So j J) as (v & R & V). pose proof (proj1 (proj2 (sound_sep fuel br g So) j J)) as O. set (o := off (f_heap g j)) in *.
  unfold ModelMsi.set_enable, ModelMsi.cap_read_word, ModelMsi.cap_write_word. rewrite E. replace (zbool (4 * o)) with true by (unfold zbool; lia). replace (2 + 4 * o) with (4 * o + 2) by lia.
  rewrite (ProofsDriver.read_upper _ _ _ tg crs dev (kind_in br) g o v A R V). cbn [bind]. cbv zeta. set (w := Z.land (v / 65536) (Z.lnot bit)).
  assert (W : 0 <= w < 2 ^ 16). { apply bits_range; [lia|]. intros k Hk. unfold w. rewrite Z.land_spec, (testbit_high (v / 65536) 16 k) by lia. reflexivity. }
  destruct (negb (w =? v / 65536)).
  - unfold cfg_write_word. destruct (to_bytes 2 w) as [dat|e] eqn:Eb; [|unfold to_bytes in Eb; replace ((0 <=? w) && (w <? 256 ^ Z.of_nat 2)) with true in Eb by (change (256 ^ Z.of_nat 2) with (2 ^ 16); lia); discriminate Eb].
    cbn [bind]. destruct (bytes_to 2 w dat Eb) as [Ld Bd]. destruct (ProofsProbe.write_one (cfg_rd br) (cfg_wr br) tg dev (4 * o + 2) dat (with_id dev g) (conj eq_refl eq_refl)) as (y & be & -> & _); [intros ->; discriminate Ld|rewrite Ld; clear; lia|exact Bd|].
    eexists. split; [reflexivity|]. split; [apply sound_wr, sound_id, sound_id, So|]. split; [split; rewrite (kinds_wr_id _ _ _ (kind_in br)); reflexivity|]. exact (placed_wr br _ _ _ (with_id dev (with_id dev g))).
  - eexists. split; [reflexivity|]. split; [apply sound_id, So|]. split; [split; reflexivity|]. exact (placed_refl g).
Qed.

Section Fn.
Context (fuel : nat) (b d f : Z) (tg : Z -> Z) (crs : option bool) (z : net) (g : fnc) (br : bool) (x : hfn).
Hypothesis Bb : 0 <= b <= 255.
Notation dev := (mkId b d f).
Hypothesis Nh : dev <> id0.
Hypothesis Ho : at_host z.
Hypothesis Le : leads b d f z = Some (g, br).
Hypothesis To : told fuel x g br.
Notation cr := (config_read (cfg_ask tg) crs dev).
Notation cw := (config_write (cfg_ask tg) dev).
Notation fr := (config_read (cfg_deliver (cfg_rd br) (cfg_wr br) tg) crs dev).
Notation fw := (config_write (cfg_deliver (cfg_rd br) (cfg_wr br) tg) dev).
(** What became of the function, for enumeration *)
Definition turned (x' : hfn) (g' : fnc) : Prop := told fuel x' g' br /\ listing g' = listing g /\ (g' = g \/ f_id g' = dev) /\ (br = true -> SpecAssign.whole g -> SpecAssign.whole g').
Lemma at_g : at_id dev g.
Proof. exact (leads_at b d f z g br Le). Qed.
Lemma turned_wrs P g' : clear_of br g P -> wrs br dev P g g' -> turned x g'.
Proof. intros C W. split; [exact (wrs_told fuel br dev P x g g' C at_g W To)|]. split; [exact (placed_listing g g' (wrs_placed br dev P g g' W))|split; [exact (wrs_id br dev P g g' W)|exact (wrs_whole br dev P g g' W)]]. Qed.
Lemma clear_none : clear_of br g (fun _ => False).
Proof. repeat split; auto. Qed.
Lemma go_val {A} P (X : res (net * A)) Y g' v : clear_of br g P -> simr (RV (via b d f z g br P)) X Y -> Y = Ok (g', v) -> X = Ok (instead g' b d f z, v) /\ turned x g'.
Proof. intros C S E. destruct (via_val b d f z g br P X Y g' v S E) as [H W]. split; [exact H|exact (turned_wrs P g' C W)]. Qed.
Lemma go_st P (X : res net) Y g' : clear_of br g P -> simr (via b d f z g br P) X Y -> Y = Ok g' -> X = Ok (instead g' b d f z) /\ turned x g'.
Proof. intros C S E. destruct (via_st b d f z g br P X Y g' S E) as [H W]. split; [exact H|exact (turned_wrs P g' C W)]. Qed.
Lemma crs_reads P addr n s t : via b d f z g br P s t -> simr (RV (via b d f z g br P)) (cr addr n s) (fr addr n t).
Proof. exact (via_read b d f tg crs z g br P Bb Nh Ho Le addr n s t). Qed.
Lemma crs_writes P addr dat s t : via b d f z g br P s t -> fits_in P addr (zlen dat) -> bytes_ok dat -> simr (via b d f z g br P) (cw addr dat s) (fw addr dat t).
Proof. exact (via_write b d f tg z g br P Bb Nh Ho Le addr dat s t). Qed.
Lemma start P : via b d f z g br P z g.
Proof. exact (via_start b d f z g br P Le). Qed.

(** ** Header *)
Lemma dword_ok r v : cfg_rd br g r = Ok (Some v) -> 0 <= v < 2 ^ 32 -> cfg_read_dword cr (4 * r) z = Ok (instead (with_id dev g) b d f z, v) /\ turned x (with_id dev g).
Proof.
  intros R V. apply (go_val (fun _ => False) _ (cfg_read_dword fr (4 * r) g) _ _ clear_none).
  - apply par_dword; [intros; apply crs_reads; assumption|apply start].
  - exact (read_four _ _ _ tg crs dev (kind_in br) g r v at_g R V).
Qed.
Lemma header_ok : cfg_read_byte cr 14 z = Ok (instead (with_id dev g) b d f z, h_type x + if h_multi x then 128 else 0) /\ turned x (with_id dev g).
Proof.
  apply (go_val (fun _ => False) _ (cfg_read_byte fr 14 g) _ _ clear_none).
  - apply par_byte; [intros; apply crs_reads; assumption|apply start].
  - destruct (reads_three br g) as (v & R & V). pose proof (t_looks _ _ _ _ To) as (_ & _ & _ & _ & _ & T & _). unfold cfg_read_byte.
    destruct (host_read _ _ _ tg crs dev 14 1 g (kind_in br) ltac:(lia) at_g) as (dd & -> & Ld & B).
    { intros r Hr. replace r with 3 by lia. exists v. split; assumption. }
    cbn [bind Z.eqb Pos.eqb]. specialize (B 0 ltac:(lia)). change (14 + 0) with 14 in B. rewrite T in B. injection B as B. destruct dd as [|y [|]]; try (unfold zlen in Ld; cbn in Ld; lia). cbn [nth Z.to_nat] in B. rewrite <- B. reflexivity.
Qed.
Lemma id_ok : cfg_read_dword cr 0 z = Ok (instead (with_id dev g) b d f z, h_id x) /\ turned x (with_id dev g).
Proof. pose proof (t_looks _ _ _ _ To) as (_ & _ & _ & R & V & _). exact (dword_ok 0 (h_id x) R V). Qed.
Lemma shows_range l exc s v : l <> [] \/ True -> SpecRegs.shows l exc s v -> 0 <= v < 2 ^ 32.
Proof. intros _ H. exact (proj1 H). Qed.
Lemma class_ok : exists v, cfg_read_dword cr 8 z = Ok (instead (with_id dev g) b d f z, v) /\ turned x (with_id dev g).
Proof.
  assert (E : cfg_rd br g 2 = fn_read g 2) by (destruct br; reflexivity). destruct (fn_shows g 2 ltac:(lia)) as (v & R & V). exists v. apply (dword_ok 2 v); [rewrite E; exact R|exact (shows_range _ _ _ _ (or_intror I) V)].
Qed.
Lemma subsys_ok : br = false -> exists v, cfg_read_dword cr 0x2c z = Ok (instead (with_id dev g) b d f z, v) /\ turned x (with_id dev g).
Proof.
  intros Eb. assert (E : cfg_rd br g 11 = ep_read g 11) by (rewrite Eb; reflexivity). destruct (ep_shows g 11 ltac:(lia)) as (v & R & V). exists v. apply (dword_ok 11 v); [rewrite E; exact R|exact (shows_range _ _ _ _ (or_intror I) V)].
Qed.
Lemma buses_ok : br = true -> exists v, cfg_read_dword cr 0x18 z = Ok (instead (with_id dev g) b d f z, v) /\ 0 <= v < 2 ^ 32 /\ turned x (with_id dev g).
Proof.
  intros Eb. assert (E : exists v, cfg_rd br g 6 = Ok (Some v) /\ 0 <= v < 2 ^ 32).
  { rewrite Eb. destruct (br_shows (mkFn (aset (fn_bar 0) 0 (aset (fn_bar 1) 0 (aset fn_capabilities_ptr 0 (f_attr g)))) (f_heap g) (f_caps g) (f_ecaps g) (f_id g)) 6) as (v & E & V & _);
      try (cbn; lia). exists v. split; [|exact V]. rewrite <- E. reflexivity. }
  destruct E as (v & R & V). exists v. destruct (dword_ok 6 v R V) as [H K]. auto.
Qed.
(** ** Capabilities *)
Lemma found_in id o : get_capability_offset (CapId id) (listing g) = Some o -> exists j, In j (f_caps g) /\ o = 4 * off (f_heap g j) /\ cap_ident false (f_heap g j) = id /\ 16 <= off (f_heap g j) < 64.
Proof.
  unfold get_capability_offset, lookup. intros Gi. destruct (find _ _) as [c|] eqn:F; [|discriminate Gi]. apply find_some in F. destruct F as [F N]. cbn [found_caps listing] in F. unfold entries in F. apply in_map_iff in F. destruct F as (j & Ec & Hj). exists j. subst c. cbn [option_map snd fst] in Gi, N. injection Gi as Gi.
  split; [exact Hj|]. split; [exact (eq_sym Gi)|]. split; [apply Z.eqb_eq; exact N|]. exact (proj1 (proj2 (sound_sep fuel br g (t_sound _ _ _ _ To)) j Hj)).
Qed.
Lemma put_buses_ok v : 0 <= v < 2 ^ 32 -> let x' := put_buses (v mod 256) (v / 256 mod 256) (v / 65536 mod 256) x in
  br = true -> exists g', cfg_write_dword cw 0x18 v z = Ok (instead g' b d f z) /\ turned x' g' /\ f_id g' = dev.
Proof.
  intros V x' Eb. set (P := fun r : Z => r = 6). destruct (write_dword (cfg_rd br) (cfg_wr br) tg dev 6 v g at_g V) as (y & E & Y). change (4 * 6) with 0x18 in E. set (g' := cfg_wr br 6 y 15 (with_id dev g)) in *.
  assert (Sm : simr (via b d f z g br P) (cfg_write_dword cw 0x18 v z) (cfg_write_dword fw 0x18 v g)).
  { apply (par_wdword (via b d f z g br P) (fits_in P) cw fw (crs_writes P)); [apply start|]. unfold fits_in, P. cbn. repeat split; lia. }
  destruct (via_st b d f z g br P _ _ g' Sm E) as [H W]. exists g'. split; [exact H|]. assert (Id : f_id g' = dev) by (unfold g'; rewrite (kinds_wr_id _ _ _ (kind_in br)); reflexivity). split; [|exact Id].
  pose proof (wrs_placed br dev P g g' W) as Pl. split; [|split; [exact (placed_listing g g' Pl)|split; [right; exact Id|exact (wrs_whole br dev P g g' W)]]]. destruct To as [T1 T2 T3 T4 T5 T6]. constructor.
  - exact (looks_buses b d f x g br v y T1 (proj1 at_g) (proj2 at_g) Y V).
  - exact T2.
  - apply (wrs_shows_bars br dev P g g'); [|exact W|exact T3]. unfold net_bars. rewrite Eb. unfold P. intros j Hj. lia.
  - apply (wrs_shows_rom br dev P g g'); [|exact W|exact T4]. unfold net_bars, P. rewrite Eb. unfold rom_of. cbn. lia.
  - exact (wrs_sound br dev fuel P g g' T5 W).
  - apply (wrs_exp fuel br dev P g g' _ _ T5); [|exact W|exact T6]. intros i Gi. unfold P.
    destruct (found_in 0x10 _ Gi) as (j & _ & Ej & _ & Rj). lia.
Qed.
Lemma walk_ok : walk_capabilities cr fuel z = Ok (instead (with_id dev g) b d f z, listing g) /\ turned x (with_id dev g).
Proof.
  apply (go_val (fun _ => False) _ (walk_capabilities fr fuel g) _ _ clear_none).
  - apply par_capabilities; [intros; apply crs_reads; assumption|apply start].
  - destruct (t_sound _ _ _ _ To) as (f0 & ops & f1 & F & T & R & O & E & L1 & L2).
    destruct O as [O1 O2 O3 O4 O5 O6 O7]. pose proof (kinds_spaces _ _ _ (kind_in br)) as SP. pose proof at_g as A.
    destruct (caps_no_dereg _ _ _ _ _ false SP F T R (O3 false)) as [C P]. destruct (caps_no_dereg _ _ _ _ _ true SP F T R (O3 true)) as [CX _].
    assert (LO : forall i, In i (f_ecaps f1) -> 64 <= off (f_heap f1 i)).
    { pose proof (caps_sorted _ _ _ _ _ true SP F T R) as S1. cbn [caps_of] in S1. destruct (f_ecaps f1) as [|k l]; [intros i []|].
      specialize (O5 k eq_refl). inversion S1 as [|x0 y S2 F1]; subst x0 y. rewrite Forall_forall in F1. intros i [<-|Hi]; [lia|]. specialize (F1 i Hi). lia. }
    rewrite E in A |- *. apply (walk_found (cfg_rd br) (cfg_wr br) (masks_of br)); auto.
    + apply kind_in.
    + exact (caps_disjoint _ _ _ _ _ false SP F T R (O4 false)).
    + exact (caps_disjoint _ _ _ _ _ true SP F T R (O4 true)).
    + intros i Hi. destruct (caps_static _ _ _ _ _ i SP F T R) as (K1 & _ & _ & K2).
      split; [apply O6; exact Hi|]. split; [cbn [f_heap with_id]; rewrite K2; apply F|]. split; [exact (caps_class _ _ _ _ _ false i SP F T R Hi)|].
      specialize (O1 i). unfold headed in *. cbn [f_heap with_id]. rewrite K1. exact O1.
    + intros i Hi. destruct (caps_static _ _ _ _ _ i SP F T R) as (_ & K1 & _ & K2). specialize (LO i Hi). specialize (O7 i Hi).
      cbn [f_heap with_id]. rewrite K1, K2. split; [lia|]. split; [apply F|]. split; [exact (caps_class _ _ _ _ _ true i SP F T R Hi)|apply O2].
Qed.
(** ** BARs *)
Definition bar_regs (r : Z) : Prop := r = 1 \/ 4 <= r < 4 + net_bars br \/ r = rom_of (net_bars br) / 4.
Lemma bars_ok : exists g' p, read_bars cr cw (net_bars br) (rom_of (net_bars br)) probed0 z = Ok (instead g' b d f z, p) /\ turned x g' /\
  (exists lay, total_slots lay = net_bars br /\ seen lay (bars_of (net_bars br) p) /\ seen lay (h_bars x)) /\ p_rom_size p = snd (h_rom x).
Proof.
  destruct To as [T1 T2 T3 T4 T5 T6]. destruct T3 as (lay & L1 & L2 & L3). destruct T4 as (a & base & R1 & R2 & R3).
  destruct (probe_all (cfg_rd br) (cfg_wr br) (net_bars br) tg crs dev probed0 g lay a base (net_kinds br) at_g L1 L2 R1) as (g' & p & lay' & E & L1' & Sa & Rp & R1' & _ & Rs).
  assert (Sm : simr (RV (via b d f z g br bar_regs)) (read_bars cr cw (net_bars br) (rom_of (net_bars br)) probed0 z) (read_bars fr fw (net_bars br) (rom_of (net_bars br)) probed0 g)).
  { apply (par_bars (via b d f z g br bar_regs) (fits_in bar_regs) cr cw fr fw (crs_reads bar_regs) (crs_writes bar_regs)); [apply start| | |].
    - unfold fits_in, bar_regs. cbn. repeat split; auto; lia.
    - intros j Hj. unfold fits_in, bar_regs. split; [lia|]. split; [lia|]. right. left. lia.
    - unfold fits_in, bar_regs. split; [lia|]. split; [destruct br; cbn; lia|]. right. right. reflexivity. }
  destruct (via_val b d f z g br bar_regs _ _ g' p Sm E) as [H W]. exists g', p. split; [exact H|]. destruct (seen_same lay lay' (h_bars x) Sa) as [S1 S2].
  split; [|split; [exists lay; split; [exact L2|]; split; [|exact L3]; unfold bars_of; rewrite zrange_span; apply (reported_seen p (f_attr g)); [exact L1|exact Rp|rewrite L2; destruct br; reflexivity]|]].
  - split; [|split; [exact (placed_listing g g' (wrs_placed br dev bar_regs g g' W))|split; [exact (wrs_id br dev bar_regs g g' W)|exact (wrs_whole br dev bar_regs g g' W)]]]. constructor.
    + apply (wrs_looks br dev bar_regs x g g'); [|exact at_g|exact T1|exact W]. intros Eb. unfold bar_regs, net_bars. rewrite Eb. unfold rom_of. cbn. lia.
    + exact T2.
    + exists lay'. split; [exact L1'|]. split; [rewrite S2; exact L2|exact (S1 L3)].
    + exists a, base. auto.
    + exact (wrs_sound br dev fuel bar_regs g g' T5 W).
    + apply (wrs_exp fuel br dev bar_regs g g' _ _ T5); [|exact W|exact T6]. intros i Gi. destruct (found_in 0x10 _ Gi) as (j & _ & Ej & _ & Rj). unfold bar_regs. destruct br; cbn; lia.
  - rewrite Rs, R3. apply rom_size; [exact (proj1 R1)|exact (proj1 (proj2 R1))|exact R2].
Qed.
(** ** The PCI Express capability *)
Lemma exp_in ty mpss : h_exp x = Some (ty, mpss) -> exists i v0 v1 v2, exp_at (listing g) g i /\ 9 <= c_len (f_heap g i) /\
  cfg_rd br g (off (f_heap g i)) = Ok (Some v0) /\ 0 <= v0 < 2 ^ 32 /\ v0 / 2 ^ 20 mod 2 ^ 4 = ty /\ cfg_rd br g (off (f_heap g i) + 1) = Ok (Some v1) /\ 0 <= v1 < 2 ^ 32 /\ v1 mod 2 ^ 3 = mpss /\
  cfg_rd br g (off (f_heap g i) + 2) = Ok (Some v2) /\ 0 <= v2 < 2 ^ 32 /\ v2 / 2 ^ 5 mod 2 ^ 3 = h_mps x.
Proof.
  intros E. pose proof (t_exp _ _ _ _ To) as X. rewrite E in X. destruct X as (i & v0 & v1 & v2 & I & K & L & En & G & R0 & T0 & R1 & T1 & R2 & T2). pose proof (exp_made fuel br g (t_sound _ _ _ _ To) i I K En G) as X.
  exists i, v0, v1, v2. split; [exact X|]. split; [exact L|]. destruct (sound_head fuel br g (t_sound _ _ _ _ To) i I) as (w & Rw & Vw). rewrite R0 in Rw. injection Rw as <-.
  destruct (exp_value _ _ _ (fun _ => 0) (kind_in br) (listing g) g i 1 X ltac:(lia) ltac:(lia)) as (w1 & Rw1 & Vw1). rewrite R1 in Rw1. injection Rw1 as <-.
  destruct (exp_value _ _ _ (fun _ => 0) (kind_in br) (listing g) g i 2 X ltac:(lia) ltac:(lia)) as (w2 & Rw2 & Vw2). rewrite R2 in Rw2. injection Rw2 as <-. repeat (split; [assumption|]). assumption.
Qed.
Lemma pcie_is : is_pcie (listing g) = match h_exp x with Some _ => true | None => false end.
Proof.
  destruct (h_exp x) as [[ty mpss]|] eqn:E.
  - destruct (exp_in ty mpss E) as (i & _ & _ & _ & X & _). exact (is_pcie_ok (listing g) g i X).
  - pose proof (t_exp _ _ _ _ To) as X. rewrite E in X. unfold is_pcie. cbn [shows_exp] in X. rewrite X. reflexivity.
Qed.
Lemma stay_put : z = instead g b d f z /\ turned x g.
Proof. split; [symmetry; exact (instead_same b d f z g br Le)|]. split; [exact To|auto]. Qed.
(** Writes to device control *)
Lemma told_control i P g' w v ty mpss : (P = fun r => r = off (f_heap g i) + 2) -> h_exp x = Some (ty, mpss) -> exp_at (listing g) g i -> 9 <= c_len (f_heap g i) -> wrs br dev P g g' ->
  cfg_rd br g' (off (f_heap g i) + 2) = Ok (Some w) -> w / 2 ^ 5 mod 2 ^ 3 = v -> turned (put_mps v x) g'.
Proof.
  intros EP E X L W Rw Vw. pose proof (wrs_placed br dev P g g' W) as Pl. split; [|split; [exact (placed_listing g g' Pl)|split; [exact (wrs_id br dev P g g' W)|exact (wrs_whole br dev P g g' W)]]]. pose proof (e_off _ _ _ X) as Eo.
  assert (NP : forall r, r < 16 -> ~ P r) by (intros r Hr; rewrite EP; lia). pose proof (exp_in ty mpss E) as (i' & v0 & v1 & v2 & X' & L' & R0 & V0 & U0 & R1 & V1 & U1 & R2 & V2 & U2).
  assert (Eoff : off (f_heap g i') = off (f_heap g i)) by (pose proof (e_found _ _ _ X) as F1; pose proof (e_found _ _ _ X') as F2; assert (4 * off (f_heap g i') = 4 * off (f_heap g i)) by congruence; lia). rewrite Eoff in *.
  destruct To as [T1 T2 T3 T4 T5 T6]. constructor.
  - refine (wrs_looks br dev P x g g' _ at_g T1 W). intros _. apply NP. lia.
  - exact T2.
  - refine (wrs_shows_bars br dev P g g' _ _ W T3). intros j Hj. apply NP. unfold net_bars in Hj. destruct br; lia.
  - refine (wrs_shows_rom br dev P g g' _ _ W T4). apply NP. destruct br; cbn; lia.
  - exact (wrs_sound br dev fuel P g g' T5 W).
  - unfold shows_exp. cbn [h_exp put_mps]. rewrite E. cbn [h_mps put_mps]. exists i, v0, v1, w. rewrite (placed_listing g g' Pl). destruct (placed_off g g' i Pl) as [-> ->]. destruct Pl as (C & _ & Hh). rewrite C. destruct (Hh i) as (_ & -> & _).
    destruct X as [X1 X2 X3 X4 X5 X6]. assert (X : exp_at (listing g) g i) by (constructor; assumption).
    assert (M : forall r, 0 <= r < c_len (f_heap g i) -> masks_of br g (off (f_heap g i) + r) = Some (pcie_rw r, pcie_w1c r, tab [(6, 0x01000800); (12, 0x80200000)] r)).
    { intros r Hr. exact (proj2 (exp_reg _ _ _ (fun _ => 0) (kind_in br) (listing g) g i r X Hr)). }
    pose proof (M 0 ltac:(lia)) as M0. pose proof (M 1 ltac:(lia)) as M1. rewrite Z.add_0_r in M0.
    change (pcie_rw 0, pcie_w1c 0, tab [(6, 0x01000800); (12, 0x80200000)] 0) with (0, 0, 0) in M0. change (pcie_rw 1, pcie_w1c 1, tab [(6, 0x01000800); (12, 0x80200000)] 1) with (0, 0, 0) in M1.
    repeat (split; [assumption|]). split; [exact (proj1 (wrs_ro br dev P g g' _ v0 W R0 M0))|]. split; [exact U0|]. split; [exact (proj1 (wrs_ro br dev P g g' _ v1 W R1 M1))|]. split; [exact U1|]. split; [exact Rw|exact Vw].
Qed.
Lemma exp_clear (r : Z) : r < 16 \/ (exists i, exp_at (listing g) g i /\ r <> off (f_heap g i) + 2 /\ 16 <= r) -> (br = true -> r <> 6) -> ~ (4 <= r < 4 + net_bars br) -> r <> rom_of (net_bars br) / 4 -> clear_of br g (fun q => q = r).
Proof.
  intros A B C D. split; [intros Eb E; exact (B Eb (eq_sym E))|]. split; [intros j Hj E; lia|]. split; [intros E; exact (D (eq_sym E))|]. intros i Gi E. destruct A as [A|(j & X & N & _)].
  - destruct (found_in 0x10 _ Gi) as (k & _ & Ek & _ & Rk). lia.
  - pose proof (e_found _ _ _ X) as F. assert (4 * off (f_heap g i) = 4 * off (f_heap g j)) by congruence. lia.
Qed.
Lemma exp_regs : exists g' regs, cfg_exp (fun _ => cr) dev (listing g) z = Ok (instead g' b d f z, regs) /\ turned x g' /\
  (if is_pcie (listing g) then Some (Z.land (Z.shiftr (fst regs) 4) 0xf, Z.land (snd regs) 0x7) else None) = h_exp x /\ 0 <= snd regs.
Proof.
  unfold cfg_exp. rewrite pcie_is. destruct (h_exp x) as [[ty mpss]|] eqn:E.
  - destruct (exp_in ty mpss E) as (i & v0 & v1 & v2 & X & L & R0 & V0 & U0 & R1 & V1 & U1 & _). set (o := off (f_heap g i)) in *. pose proof (e_off _ _ _ X) as Eo. fold o in Eo.
    set (F := fun (s : fnc) => '(s, reg) <- cap_read_word fr (listing g) EXP 2 s ;; '(s, devcap) <- cap_read_dword fr (listing g) EXP 4 s ;; Ok (s, (reg, devcap))).
    exists (with_id dev g), (v0 / 65536, v1). assert (Q : F g = Ok (with_id dev g, (v0 / 65536, v1))).
    { unfold F. pose proof (exp_offset _ _ _ X) as Of. fold o in Of. rewrite (cap_rd2 fr (listing g) EXP (4 * o) Of 2 g). replace (2 + 4 * o) with (4 * o + 2) by lia.
      rewrite (ProofsDriver.read_upper _ _ _ tg crs dev (kind_in br) g o v0 at_g R0 V0). cbn [bind]. rewrite (cap_rd4 fr (listing g) EXP (4 * o) Of 4). replace (4 + 4 * o) with (4 * (o + 1)) by lia.
      assert (R1' : cfg_rd br (with_id dev g) (o + 1) = Ok (Some v1)) by (rewrite (proj1 (kinds_id _ _ _ (kind_in br) dev g _)); exact R1).
      rewrite (read_four _ _ _ tg crs dev (kind_in br) (with_id dev g) (o + 1) v1 (at_own dev g) R1' V1). reflexivity. }
    destruct (go_val (fun _ => False) ('(s, reg) <- cap_read_word cr (listing g) EXP 2 z ;; '(s, devcap) <- cap_read_dword cr (listing g) EXP 4 s ;; Ok (s, (reg, devcap))) (F g) (with_id dev g) (v0 / 65536, v1) clear_none) as [H T]; [|exact Q|].
    { unfold F. set (N := fun _ : Z => False). set (V := via b d f z g br N). eapply (par_let V); [exact (par_cword V cr fr (crs_reads N) (listing g) EXP 2 z g (start N))|]. intros s1 t1 reg H1.
      eapply (par_let V); [exact (par_cdword V cr fr (crs_reads N) (listing g) EXP 4 s1 t1 H1)|]. intros s2 t2 cap H2. apply par_ret, H2. }
    split; [exact H|]. split; [exact T|]. cbn [fst snd]. split; [|lia]. f_equal. change 0xf with (Z.ones 4). change 7 with (Z.ones 3). rewrite !Z.land_ones, Z.shiftr_div_pow2 by lia. rewrite <- U0, <- U1. change 65536 with (2 ^ 16). rewrite Z.div_div by lia. reflexivity.
  - exists g, (0, 0). split; [rewrite <- (proj1 stay_put); reflexivity|]. split; [exact (proj2 stay_put)|]. split; [reflexivity|cbn; lia].
Qed.
Lemma mps_read ty mpss : h_exp x = Some (ty, mpss) -> read_mps cr (listing g) z = Ok (instead (with_id dev g) b d f z, h_mps x) /\ turned x (with_id dev g).
Proof.
  intros E. destruct (exp_in ty mpss E) as (i & v0 & v1 & v2 & X & L & _ & _ & _ & _ & _ & _ & R2 & V2 & U2). apply (go_val (fun _ => False) _ (read_mps fr (listing g) g) _ _ clear_none).
  - apply (par_read_mps _ cr fr (crs_reads _)), start.
  - rewrite <- U2. exact (field_read _ _ _ tg crs dev (kind_in br) (listing g) 5 3 g i v2 at_g X ltac:(lia) ltac:(lia) ltac:(lia) R2 V2).
Qed.
Lemma mps_write ty mpss ms v : h_exp x = Some (ty, mpss) ->
  if (v <? 0) || (v >? 5) || (v >? ms) then write_mps cr cw (listing g) ms v z = Err ValueError
  else exists g', write_mps cr cw (listing g) ms v z = Ok (instead g' b d f z) /\ turned (put_mps v x) g'.
Proof.
  intros E. destruct ((v <? 0) || (v >? 5) || (v >? ms)) eqn:Gu; [unfold write_mps; rewrite Gu; reflexivity|].
  destruct (exp_in ty mpss E) as (i & v0 & v1 & v2 & X & L & _ & _ & _ & _ & _ & _ & R2 & V2 & U2). set (P := fun r => r = off (f_heap g i) + 2).
  destruct (mps_ok _ _ _ tg crs dev (kind_in br) (listing g) ms v g i at_g X ltac:(lia) ltac:(lia) ltac:(lia)) as (w & g' & Rw & Vw & Q & _ & _ & R'). rewrite R2 in Rw. injection Rw as <-.
  assert (Sm : simr (via b d f z g br P) (write_mps cr cw (listing g) ms v z) (write_mps fr fw (listing g) ms v g)).
  { apply (par_write_mps _ (fits_in P) cr cw fr fw (crs_reads P) (crs_writes P)); [apply start|]. intros o Eo. rewrite (exp_offset _ _ _ X) in Eo. assert (o = 4 * off (f_heap g i)) by congruence. subst o. unfold fits_in, P. split; [lia|]. split; lia. }
  destruct (via_st b d f z g br P _ _ g' Sm Q) as [H W]. exists g'. split; [exact H|]. refine (told_control i P g' _ v ty mpss eq_refl E X L W R' _).
  set (st := status_after _ _). clearbody st. unfold with_field. change (2 ^ (5 + 3)) with 256. change (2 ^ 5) with 32. change (2 ^ 3) with 8. clear - Gu. lia.
Qed.
Lemma put_same : put_mps (h_mps x) x = x.
Proof. destruct x. reflexivity. Qed.
Lemma tags_set devcap : 0 <= devcap -> exists g', configure_extended_tags cr cw (listing g) devcap z = Ok (instead g' b d f z) /\ turned x g'.
Proof.
  intros Dc. destruct (h_exp x) as [[ty mpss]|] eqn:E.
  - destruct (exp_in ty mpss E) as (i & v0 & v1 & v2 & X & L & _ & _ & _ & _ & _ & _ & R2 & V2 & U2). set (P := fun r => r = off (f_heap g i) + 2).
    destruct (tags_ok _ _ _ tg crs dev (kind_in br) (listing g) devcap g i at_g X ltac:(lia) Dc) as (w & g' & Rw & Vw & Q & _ & _ & R'). rewrite R2 in Rw. injection Rw as <-.
    assert (Sm : simr (via b d f z g br P) (configure_extended_tags cr cw (listing g) devcap z) (configure_extended_tags fr fw (listing g) devcap g)).
    { apply (par_tags _ (fits_in P) cr cw fr fw (crs_reads P) (crs_writes P)); [apply start|]. intros o Eo. rewrite (exp_offset _ _ _ X) in Eo. assert (o = 4 * off (f_heap g i)) by congruence. subst o. unfold fits_in, P. split; [lia|]. split; lia. }
    destruct (via_st b d f z g br P _ _ g' Sm Q) as [H W]. exists g'. split; [exact H|]. rewrite <- put_same. refine (told_control i P g' _ (h_mps x) ty mpss eq_refl E X L W R' _). rewrite <- U2.
    destruct (Z.testbit devcap 5); [|reflexivity]. set (st := status_after _ _). clearbody st. unfold with_field. change (2 ^ (8 + 1)) with 512. change (2 ^ 8) with 256. change (2 ^ 5) with 32. change (2 ^ 3) with 8. clear. lia.
  - exists g. unfold configure_extended_tags. rewrite pcie_is, E. cbn [negb]. destruct stay_put as [<- T]. auto.
Qed.
Lemma serr_set : exists g', configure_serr cr cw (h_type x) z = Ok (instead g' b d f z) /\ turned x g'.
Proof.
  rewrite (t_type _ _ _ _ To). destruct (Bool.bool_dec br true) as [Eb|Eb].
  - destruct (serr_ok tg crs dev g at_g) as (v & g' & _ & Q & _). exists g'. apply (go_st (fun r => r = 15) _ (configure_serr fr fw 1 g)).
    + apply exp_clear; [left; lia|lia|rewrite Eb; cbn; lia|rewrite Eb; cbn; lia].
    + rewrite Eb at 2. cbn [Z.b2z]. apply (par_serr _ (fits_in (fun r => r = 15)) cr cw fr fw (crs_reads _) (crs_writes _)); [apply start|]. unfold fits_in. cbn. repeat split; lia.
    + rewrite Eb at 1 2 3 4. exact Q.
  - exists g. apply Bool.not_true_is_false in Eb. replace (Z.b2z br) with 0 by (rewrite Eb; reflexivity). unfold configure_serr. cbn [Z.eqb negb]. destruct stay_put as [<- T]. auto.
Qed.
Lemma crs_set : exists g', enable_crs cr cw (listing g) z = Ok (instead g' b d f z) /\ turned x g'.
Proof.
  destruct (h_exp x) as [[ty mpss]|] eqn:E.
  - destruct (exp_in ty mpss E) as (i & v0 & v1 & v2 & X & L & _). pose proof (e_off _ _ _ X) as Eo. destruct (crs_ok _ _ _ tg crs dev (kind_in br) (listing g) g i at_g X L) as (w & g' & _ & _ & Q & _).
    exists g'. set (P := fun r => r = off (f_heap g i) + 7). apply (go_st P _ (enable_crs fr fw (listing g) g)).
    + apply (exp_clear (off (f_heap g i) + 7)); [right; exists i; split; [exact X|lia]|lia|destruct br; cbn; lia|destruct br; cbn; lia].
    + apply (par_crs _ (fits_in P) cr cw fr fw (crs_reads P) (crs_writes P)); [apply start|]. intros o Ho'. rewrite (exp_offset _ _ _ X) in Ho'. assert (o = 4 * off (f_heap g i)) by congruence. subst o. unfold fits_in, P. split; [lia|]. split; lia.
    + exact Q.
  - exists g. unfold enable_crs. rewrite pcie_is, E. cbn [negb]. destruct stay_put as [<- T]. auto.
Qed.
(** ** MSI and MSI-X *)
Definition msi_regs (r : Z) : Prop := exists j, In j (f_caps g) /\ cap_ident false (f_heap g j) <> 0x10 /\ r = off (f_heap g j).
Lemma msi_clear : clear_of br g msi_regs.
Proof.
  destruct (sound_sep fuel br g (t_sound _ _ _ _ To)) as [Dj Sp]. assert (N : forall r, r < 16 -> ~ msi_regs r) by (intros r Hr (j & Hj & _ & ->); pose proof (Sp j Hj); lia).
  split; [intros _; apply N; lia|]. split; [intros j Hj; apply N; unfold net_bars in Hj; destruct br; lia|]. split; [apply N; destruct br; cbn; lia|].
  intros i Gi (j & Hj & Nj & Ej). destruct (found_in 0x10 _ Gi) as (k & Hk & Ek & Ik & _). destruct (h_exp x) as [[ty mpss]|] eqn:E.
  - destruct (exp_in ty mpss E) as (i0 & v0 & v1 & v2 & X & L & _). pose proof (e_found _ _ _ X) as F0. assert (4 * off (f_heap g i) = 4 * off (f_heap g i0)) by congruence.
    assert (k = i0). { destruct (Nat.eq_dec k i0) as [|Nk]; [assumption|]. pose proof (Dj k i0 Hk (e_in _ _ _ X) Nk) as Ap. unfold SpecCapList.apart in Ap. pose proof (Sp k Hk). pose proof (Sp i0 (e_in _ _ _ X)). lia. }
    subst k. assert (j <> i0) by congruence. pose proof (Dj j i0 Hj Hk ltac:(assumption)) as Ap. unfold SpecCapList.apart in Ap. pose proof (Sp j Hj). lia.
  - pose proof (t_exp _ _ _ _ To) as X. rewrite E in X. cbn [shows_exp] in X. congruence.
Qed.
Lemma init_set : exists q g', ModelMsi.init_capabilities cr cw (cap_at (listing g)) ModelMsi.irq0 z = Ok (q, instead g' b d f z) /\ turned x g'.
Proof.
  set (co := cap_at (listing g)). pose proof (t_sound _ _ _ _ To) as So.
  assert (Co : forall id, co id <> 0 -> exists j, In j (f_caps g) /\ co id = 4 * off (f_heap g j) /\ cap_ident false (f_heap g j) = id).
  { intros id. unfold co, cap_at. destruct (get_capability_offset (CapId id) (listing g)) as [o|] eqn:Gi; cbn [or0]; [|congruence]. intros _. destruct (found_in id o Gi) as (j & Hj & Ej & Ij & _). exists j. auto. }
  assert (Fn : exists q g', ModelMsi.init_capabilities fr fw co ModelMsi.irq0 g = Ok (q, g')).
  { unfold ModelMsi.init_capabilities, ModelMsi.msi_set_enable, ModelMsi.msix_set_enable.
    assert (S1 : exists q1 g1, (if zbool (co ModelMsi.MSI_ID) then s <- ModelMsi.set_enable fr fw co ModelMsi.MSI_ID 1 false g ;; Ok (ModelMsi.mkIrq (ModelMsi.q_vectors ModelMsi.irq0) false (ModelMsi.q_msix ModelMsi.irq0), s) else Ok (ModelMsi.irq0, g)) = Ok (q1, g1) /\
      sound fuel br g1 /\ at_id dev g1 /\ placed g g1).
    { destruct (zbool (co ModelMsi.MSI_ID)) eqn:Z1; [|exists ModelMsi.irq0, g; split; [reflexivity|]; split; [exact So|]; split; [exact at_g|apply placed_refl]].
      destruct (Co ModelMsi.MSI_ID ltac:(unfold zbool in Z1; lia)) as (j & Hj & Ej & _). destruct (enable_fn fuel br tg crs dev g j co ModelMsi.MSI_ID 1 So at_g Hj Ej) as (g1 & -> & S1 & A1 & P1). cbn [bind]. eexists. exists g1. split; [reflexivity|]. auto. }
    destruct S1 as (q1 & g1 & -> & S1 & A1 & P1). cbn [bind]. destruct (zbool (co ModelMsi.MSIX_ID)) eqn:Z2; [|eexists; eexists; reflexivity].
    destruct (Co ModelMsi.MSIX_ID ltac:(unfold zbool in Z2; lia)) as (j & Hj & Ej & _). destruct (placed_off g g1 j P1) as [Oj _]. rewrite <- Oj in Ej. assert (Hj' : In j (f_caps g1)) by (rewrite (proj1 P1); exact Hj).
    destruct (enable_fn fuel br tg crs dev g1 j co ModelMsi.MSIX_ID 0x8000 S1 A1 Hj' Ej) as (g2 & -> & _). cbn [bind]. eexists. eexists. reflexivity. }
  destruct Fn as (q & g' & Q). exists q, g'.
  assert (Sm : simr (fun p p' => via b d f z g br msi_regs (snd p) (snd p') /\ fst p = fst p') (ModelMsi.init_capabilities cr cw co ModelMsi.irq0 z) (ModelMsi.init_capabilities fr fw co ModelMsi.irq0 g)).
  { apply (par_init _ (fits_in msi_regs) cr cw fr fw (crs_reads msi_regs) (crs_writes msi_regs)); [apply start|]. intros id Hid Nz. destruct (Co id Nz) as (j & Hj & -> & Ij). unfold fits_in. split; [lia|]. split; [clear; lia|].
    exists j. split; [exact Hj|]. split; [rewrite Ij; destruct Hid as [<-|[<-|[]]]; discriminate|clear; lia]. }
  rewrite Q in Sm. destruct (ModelMsi.init_capabilities cr cw co ModelMsi.irq0 z) as [[q1 z1]|e]; [|destruct Sm]. destruct Sm as [[V W] Eq]. cbn [fst snd] in V, W, Eq. subst q1 z1. split; [reflexivity|exact (turned_wrs msi_regs g' msi_clear W)].
Qed.
End Fn.
