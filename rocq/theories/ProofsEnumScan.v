(** Enumeration by configuration accesses in the tree does what ModelEnum.v says. *)
From Verif Require Import Base BaseProofs Bits SpecTlp ModelUtils ModelTlp ModelAttrs ModelCapList ModelConfig ModelFunction ModelHost ModelPci ModelChan ModelEnum ModelPciCaps ModelDriver ModelTree ModelTreeCfg ModelEnumCfg
  SpecConfig SpecHost SpecBar SpecPciCaps SpecRoute SpecTree SpecTreeCfg SpecEnum ModelScan SpecScan SpecEnumCfg
  ProofsUsSink ProofsHost ProofsEnum ProofsTreeUpAll ProofsTreeCfgAll ProofsScan ProofsScanAll ProofsScanHw ProofsEnumFn ProofsEnumCap ProofsEnumTree.
From Verif Require ModelMsi ProofsFields SpecAssign.

Section Scan.
Context (fuel : nat) (m : Z) (tg : pcie_id -> Z -> Z) (crs : pcie_id -> option bool).
Definition cr (dev : pcie_id) := config_read (cfg_ask (tg dev)) (crs dev) dev.
Definition cw (dev : pcie_id) := config_write (cfg_ask (tg dev)) dev.

(** ** A device that the host has found *)
Definition knows (n : Z) (q : pdev) (p : pfn) (h : hw) (z : net) : Prop := exists b d f x g br, d_id q = mkId b d f /\ 0 <= b <= n /\ mkId b d f <> id0 /\
  hw_get b d f h = Some x /\ leads b d f z = Some (g, br) /\ d_found q = listing g /\ alike (strip q) p /\ p_exp p = h_exp x /\ p_type p = h_type x.
Lemma knows_stays n q p h z h' z' : stays n h z h' z' -> knows n q p h z -> knows n q p h' z'.
Proof.
  intros S (b & d & f & x & g & br & I & B & N & G & L & F & A & E & T). destruct (S b d f x g br B G L) as (x' & g' & G' & L' & E1 & E2 & E3). exists b, d, f, x', g', br. repeat (split; [assumption|]). split; [congruence|]. split; [exact A|]. split; congruence.
Qed.
Lemma knows_stay n q p h z h' z' : stay n h z h' z' -> knows n q p h z -> knows n q p h' z'.
Proof. intros [S _]. exact (knows_stays n q p h z h' z' S). Qed.
Lemma knows_mono n n' q p h z : n <= n' -> knows n q p h z -> knows n' q p h z.
Proof. intros L (b & d & f & x & g & br & I & B & H). exists b, d, f, x, g, br. split; [exact I|]. split; [lia|exact H]. Qed.
Lemma knows_exp n q p h z : knows n q p h z -> (if is_pcie (d_found q) then Some (d_ptype q, d_mpss q) else None) = p_exp p.
Proof. intros (b & d & f & x & g & br & _ & _ & _ & _ & _ & _ & A & _). destruct A as (_ & _ & _ & A & _). exact A. Qed.

(** ** Max_Payload_Size *)
Lemma get_ok n q p h z e : 0 <= n <= 255 -> system fuel h z -> knows n q p h z -> p_exp p = Some e ->
  exists z', read_mps (cr (d_id q)) (d_found q) z = Ok (z', get_mps p h) /\ system fuel h z' /\ stay n h z h z'.
Proof.
  intros Hn Sy (b & d & f & x & g & br & I & B & N & G & L & F & A & E & T) Ep. pose proof (place fuel h z b d f Sy) as Pl. rewrite G, L in Pl. cbn [matches] in Pl. rewrite F, I. rewrite Ep in E. destruct e as [ty mpss].
  destruct (mps_read fuel b d f (tg (mkId b d f)) (crs (mkId b d f)) z g br x ltac:(lia) N (proj1 Sy) L Pl ty mpss (eq_sym E)) as [H Tu]. destruct (one_same fuel h z b d f g _ br x n B Sy N G L Tu) as (S1 & S2 & _).
  exists (instead (with_id (mkId b d f) g) b d f z). split; [|auto]. unfold cr. rewrite H. unfold get_mps, p_at. destruct A as (A & _). cbn [p_id strip] in A. rewrite <- A, I. cbn [bus device func]. rewrite G. reflexivity.
Qed.
Lemma set_ok n q p h z ty mpss v : 0 <= n <= 255 -> system fuel h z -> knows n q p h z -> p_exp p = Some (ty, mpss) ->
  match set_mps p mpss v h with
  | Ok h' => exists z', write_mps (cr (d_id q)) (cw (d_id q)) (d_found q) mpss v z = Ok z' /\ system fuel h' z' /\ stay n h z h' z'
  | Err e => write_mps (cr (d_id q)) (cw (d_id q)) (d_found q) mpss v z = Err e
  end.
Proof.
  intros Hn Sy (b & d & f & x & g & br & I & B & N & G & L & F & A & E & T) Ep. pose proof (place fuel h z b d f Sy) as Pl. rewrite G, L in Pl. cbn [matches] in Pl. rewrite F, I. rewrite Ep in E.
  pose proof (mps_write fuel b d f (tg (mkId b d f)) (crs (mkId b d f)) z g br x ltac:(lia) N (proj1 Sy) L Pl ty mpss mpss v (eq_sym E)) as H. unfold set_mps. destruct (_ || _ || _); [exact H|]. destruct H as (g' & H & Tu).
  destruct A as (A & _). cbn [p_id strip] in A. unfold p_at. rewrite <- A, I. cbn [bus device func]. exists (instead g' b d f z). split; [exact H|]. split.
  - exact (one_system fuel h z b d f g g' br x (put_mps v) Sy N G L Tu).
  - assert (Kk : forall y, h_sec (put_mps v y) = h_sec y /\ h_sub (put_mps v y) = h_sub y) by (intros y; split; reflexivity). exact (one_stay fuel h z b d f g g' br x (put_mps v) n Sy G L (mps_mild v) (or_introl Kk) Tu Kk B).
Qed.
Definition knows_br (n : Z) (o : option pdev) (po : option pfn) (h : hw) (z : net) : Prop := match o, po with None, None => True | Some q, Some p => knows n q p h z | _, _ => False end.
Lemma knows_br_stay n o po h z h' z' : stay n h z h' z' -> knows_br n o po h z -> knows_br n o po h' z'.
Proof. intros S. destruct o, po; cbn [knows_br]; auto. apply knows_stay, S. Qed.
Lemma mps_all n br pb q p h z : 0 <= n <= 255 -> system fuel h z -> knows n q p h z -> knows_br n br pb h z ->
  match configure_mps m pb p h with
  | Ok h' => exists z', cfg_mps cr cw m br q z = Ok z' /\ system fuel h' z' /\ stay n h z h' z'
  | Err e => cfg_mps cr cw m br q z = Err e
  end.
Proof.
  intros Hn Sy Kq Kb. pose proof (knows_exp _ _ _ _ _ Kq) as Eq. unfold configure_mps, cfg_mps. cbv zeta. destruct (is_pcie (d_found q)); rewrite <- Eq; cbn [negb]; [|exists z; split; [reflexivity|]; split; [exact Sy|apply stay_refl]]. symmetry in Eq.
  destruct (d_ptype q =? 9); [exact (set_ok n q p h z _ _ (d_mpss q) Hn Sy Kq Eq)|].
  destruct (d_ptype q =? 4); [destruct br, pb; cbn [knows_br] in Kb; try contradiction; [reflexivity|exact (set_ok n q p h z _ _ m Hn Sy Kq Eq)]|].
  destruct br as [bq|], pb as [bp|]; cbn [knows_br] in Kb; try contradiction; [|exists z; split; [reflexivity|]; split; [exact Sy|apply stay_refl]].
  pose proof (knows_exp _ _ _ _ _ Kb) as Eb. destruct (is_pcie (d_found bq)); rewrite <- Eb; cbn [negb]; [|exists z; split; [reflexivity|]; split; [exact Sy|apply stay_refl]]. symmetry in Eb.
  destruct (get_ok n q p h z _ Hn Sy Kq Eq) as (z1 & -> & S1 & T1). cbn [bind]. pose proof (knows_stay _ _ _ _ _ _ _ T1 Kq) as Kq1. pose proof (knows_stay _ _ _ _ _ _ _ T1 Kb) as Kb1.
  destruct (get_ok n bq bp h z1 _ Hn S1 Kb1 Eb) as (z2 & -> & S2 & T2). cbn [bind]. pose proof (knows_stay _ _ _ _ _ _ _ T2 Kq1) as Kq2. pose proof (knows_stay _ _ _ _ _ _ _ T2 Kb1) as Kb2. pose proof (stay_trans _ _ _ _ _ _ _ T1 T2) as T02.
  destruct (get_mps p h =? get_mps bp h); [exists z2; auto|]. destruct ((d_mpss q <? get_mps bp h) && (d_ptype bq =? 4)).
  - pose proof (set_ok n bq bp h z2 _ _ (Z.min (d_mpss q) (d_mpss bq)) Hn S2 Kb2 Eb) as W. destruct (set_mps bp (d_mpss bq) _ h) as [h3|e]; cbn [bind]; [|rewrite W; reflexivity].
    destruct W as (z3 & -> & S3 & T3). cbn [bind]. pose proof (knows_stay _ _ _ _ _ _ _ T3 Kq2) as Kq3. pose proof (knows_stay _ _ _ _ _ _ _ T3 Kb2) as Kb3.
    destruct (get_ok n bq bp h3 z3 _ Hn S3 Kb3 Eb) as (z4 & -> & S4 & T4). cbn [bind]. pose proof (knows_stay _ _ _ _ _ _ _ T4 Kq3) as Kq4.
    pose proof (set_ok n q p h3 z4 _ _ (Z.min (get_mps bp h3) (d_mpss q)) Hn S4 Kq4 Eq) as V. destruct (set_mps p (d_mpss q) _ h3) as [h5|e]; [|exact V]. destruct V as (z5 & V & S5 & T5). exists z5. split; [exact V|]. split; [exact S5|].
    exact (stay_trans _ _ _ _ _ _ _ T02 (stay_trans _ _ _ _ _ _ _ T3 (stay_trans _ _ _ _ _ _ _ T4 T5))).
  - cbn [bind]. pose proof (set_ok n q p h z2 _ _ (Z.min (get_mps bp h) (d_mpss q)) Hn S2 Kq2 Eq) as V. destruct (set_mps p (d_mpss q) _ h) as [h5|e]; [|exact V]. destruct V as (z5 & V & S5 & T5). exists z5. split; [exact V|]. split; [exact S5|exact (stay_trans _ _ _ _ _ _ _ T02 T5)].
Qed.

(** ** The setup of a device *)
Section Setup.
Context (n d f : Z).
Hypothesis Hn : 0 <= n <= 255.
Notation dev := (mkId n d f).
Hypothesis Nh : dev <> id0.
(** The function there, at any time *)
Definition ready (h : hw) (z : net) (x : hfn) (br : bool) (L : found) : Prop := system fuel h z /\ hw_get n d f h = Some x /\ exists g, leads n d f z = Some (g, br) /\ listing g = L.
Definition onward (h : hw) (z z' : net) (x : hfn) (br : bool) (L : found) : Prop := ready h z' x br L /\ stay n h z h z'.
Lemma go_on h z x br L : ready h z x br L -> exists g, leads n d f z = Some (g, br) /\ listing g = L /\ at_host z /\ told fuel x g br /\ forall g', turned fuel n d f g br x g' -> onward h z (instead g' n d f z) x br L /\ (f_id g' = dev -> gain n (fun i => i = dev) z (instead g' n d f z)).
Proof.
  intros (Sy & G & g & Le & Li). exists g. pose proof (place fuel h z n d f Sy) as Pl. rewrite G, Le in Pl. cbn [matches] in Pl. split; [exact Le|]. split; [exact Li|]. split; [exact (proj1 Sy)|]. split; [exact Pl|]. intros g' Tu.
  destruct (one_same fuel h z n d f g g' br x n ltac:(lia) Sy Nh G Le Tu) as (S1 & S2 & L1 & Ga). split; [|exact Ga]. split; [|exact S2]. split; [exact S1|]. split; [exact G|]. exists g'. split; [exact L1|]. rewrite (proj1 (proj2 Tu)). exact Li.
Qed.
Lemma on_header h z x br L : ready h z x br L -> exists z', cfg_read_byte (cr dev) 0x00e z = Ok (z', h_type x + if h_multi x then 128 else 0) /\ onward h z z' x br L.
Proof. intros R. destruct (go_on _ _ _ _ _ R) as (g & Le & _ & Ho & To & On). destruct (header_ok fuel n d f (tg dev) (crs dev) z g br x Hn Nh Ho Le To) as [H Tu]. eexists. split; [exact H|exact (proj1 (On _ Tu))]. Qed.
Lemma on_id h z x br L : ready h z x br L -> exists z', cfg_read_dword (cr dev) 0 z = Ok (z', h_id x) /\ onward h z z' x br L /\ gain n (fun i => i = dev) z z'.
Proof. intros R. destruct (go_on _ _ _ _ _ R) as (g & Le & _ & Ho & To & On). destruct (id_ok fuel n d f (tg dev) (crs dev) z g br x Hn Nh Ho Le To) as [H Tu]. eexists. split; [exact H|split; [exact (proj1 (On _ Tu))|exact (proj2 (On _ Tu) eq_refl)]]. Qed.
Lemma on_class h z x br L : ready h z x br L -> exists z' v, cfg_read_dword (cr dev) 0x008 z = Ok (z', v) /\ onward h z z' x br L.
Proof. intros R. destruct (go_on _ _ _ _ _ R) as (g & Le & _ & Ho & To & On). destruct (class_ok fuel n d f (tg dev) (crs dev) z g br x Hn Nh Ho Le To) as (v & H & Tu). eexists. exists v. split; [exact H|exact (proj1 (On _ Tu))]. Qed.
Lemma on_bars h z x br L : ready h z x br L -> exists z' p, cfg_bars cr cw dev (h_type x) z = Ok (z', p) /\ onward h z z' x br L /\
  (exists lay, total_slots lay = net_bars br /\ seen lay (bars_of (net_bars br) p) /\ seen lay (h_bars x)) /\ p_rom_size p = snd (h_rom x).
Proof.
  intros R. destruct (go_on _ _ _ _ _ R) as (g & Le & _ & Ho & To & On). unfold cfg_bars. rewrite (t_type _ _ _ _ To). destruct br; cbn [Z.b2z Z.eqb Pos.eqb].
  - destruct (bars_ok fuel n d f (tg dev) (crs dev) z g true x Hn Nh Ho Le To) as (g' & p & H & Tu & B). eexists. exists p. split; [exact H|]. split; [exact (proj1 (On _ Tu))|exact B].
  - destruct (subsys_ok fuel n d f (tg dev) (crs dev) z g false x Hn Nh Ho Le To eq_refl) as (v & H & Tu). fold (cr dev) in H. rewrite H. cbn [bind]. destruct (On _ Tu) as [[R1 T1] _].
    destruct (go_on _ _ _ _ _ R1) as (g1 & Le1 & _ & Ho1 & To1 & On1). destruct (bars_ok fuel n d f (tg dev) (crs dev) _ g1 false x Hn Nh Ho1 Le1 To1) as (g' & p & H1 & Tu1 & B). eexists. exists p. split; [exact H1|]. split; [|exact B].
    destruct (On1 _ Tu1) as [[R2 T2] _]. split; [exact R2|exact (stay_trans _ _ _ _ _ _ _ T1 T2)].
Qed.
Lemma on_walk h z x br L : ready h z x br L -> exists z', walk_capabilities (cr dev) fuel z = Ok (z', L) /\ onward h z z' x br L.
Proof. intros R. destruct (go_on _ _ _ _ _ R) as (g & Le & <- & Ho & To & On). destruct (walk_ok fuel n d f (tg dev) (crs dev) z g br x Hn Nh Ho Le To) as [H Tu]. eexists. split; [exact H|exact (proj1 (On _ Tu))]. Qed.
Lemma on_exp h z x br L : ready h z x br L -> exists z' regs, cfg_exp cr dev L z = Ok (z', regs) /\ onward h z z' x br L /\
  (if is_pcie L then Some (Z.land (Z.shiftr (fst regs) 4) 0xf, Z.land (snd regs) 0x7) else None) = h_exp x /\ 0 <= snd regs.
Proof. intros R. destruct (go_on _ _ _ _ _ R) as (g & Le & <- & Ho & To & On). destruct (exp_regs fuel n d f (tg dev) (crs dev) z g br x Hn Nh Ho Le To) as (g' & regs & H & Tu & E). eexists. exists regs. split; [exact H|]. split; [exact (proj1 (On _ Tu))|exact E]. Qed.
Lemma on_tags h z x br L devcap : 0 <= devcap -> ready h z x br L -> exists z', configure_extended_tags (cr dev) (cw dev) L devcap z = Ok z' /\ onward h z z' x br L.
Proof. intros D R. destruct (go_on _ _ _ _ _ R) as (g & Le & <- & Ho & To & On). destruct (tags_set fuel n d f (tg dev) (crs dev) z g br x Hn Nh Ho Le To devcap D) as (g' & H & Tu). eexists. split; [exact H|exact (proj1 (On _ Tu))]. Qed.
Lemma on_serr h z x br L : ready h z x br L -> exists z', configure_serr (cr dev) (cw dev) (h_type x) z = Ok z' /\ onward h z z' x br L.
Proof. intros R. destruct (go_on _ _ _ _ _ R) as (g & Le & <- & Ho & To & On). destruct (serr_set fuel n d f (tg dev) (crs dev) z g br x Hn Nh Ho Le To) as (g' & H & Tu). eexists. split; [exact H|exact (proj1 (On _ Tu))]. Qed.
Lemma on_crs h z x br L : ready h z x br L -> exists z', enable_crs (cr dev) (cw dev) L z = Ok z' /\ onward h z z' x br L.
Proof. intros R. destruct (go_on _ _ _ _ _ R) as (g & Le & <- & Ho & To & On). destruct (crs_set fuel n d f (tg dev) (crs dev) z g br x Hn Nh Ho Le To) as (g' & H & Tu). eexists. split; [exact H|exact (proj1 (On _ Tu))]. Qed.
Lemma on_init h z x br L : ready h z x br L -> exists q z', ModelMsi.init_capabilities (cr dev) (cw dev) (cap_at L) ModelMsi.irq0 z = Ok (q, z') /\ onward h z z' x br L.
Proof. intros R. destruct (go_on _ _ _ _ _ R) as (g & Le & <- & Ho & To & On). destruct (init_set fuel n d f (tg dev) (crs dev) z g br x Hn Nh Ho Le To) as (q & g' & H & Tu). exists q. eexists. split; [exact H|exact (proj1 (On _ Tu))]. Qed.
Lemma on_stay h z x br L h' z' : ready h z x br L -> system fuel h' z' -> stays n h z h' z' -> exists x', ready h' z' x' br L /\ h_exp x' = h_exp x /\ h_type x' = h_type x.
Proof.
  intros (Sy & G & g & Le & Li) Sy' St. destruct (St n d f x g br ltac:(lia) G Le) as (x' & g' & G' & L' & E1 & E2 & E3). exists x'. split; [|auto]. split; [exact Sy'|]. split; [exact G'|]. exists g'. split; [exact L'|congruence].
Qed.
Lemma setup_all br pb h z x : system fuel h z -> hw_get n d f h = Some x -> knows_br n br pb h z ->
  match setup m pb n d f x h with
  | Ok (h', p) => exists z' q, cfg_setup cr cw fuel m br dev z = Ok (z', q) /\ system fuel h' z' /\ stay n h z h' z' /\ knows n q p h' z'
  | Err e => cfg_setup cr cw fuel m br dev z = Err e
  end.
Proof.
  intros Sy G Kb. pose proof (place fuel h z n d f Sy) as Pl. rewrite G in Pl. destruct (leads n d f z) as [[g0 bb]|] eqn:Le; cbn [matches] in Pl; [|contradiction]. set (L := listing g0).
  assert (R0 : ready h z x bb L) by (split; [exact Sy|]; split; [exact G|]; exists g0; auto). pose proof (t_type _ _ _ _ Pl) as Ty. unfold setup, cfg_setup.
  destruct (on_header _ _ _ _ _ R0) as (z1 & -> & R1 & T1). cbn [bind]. cbv zeta.
  assert (V1 : Z.land (h_type x + (if h_multi x then 128 else 0)) 127 = h_type x) by (rewrite Ty; destruct bb, (h_multi x); reflexivity).
  assert (V2 : zbool (Z.land (h_type x + (if h_multi x then 128 else 0)) 128) = h_multi x) by (rewrite Ty; destruct bb, (h_multi x); reflexivity). rewrite V1, V2.
  destruct (on_class _ _ _ _ _ R1) as (z2 & v2 & -> & R2 & T2). cbn [bind]. destruct (on_bars _ _ _ _ _ R2) as (z3 & pr & -> & [R3 T3] & (lay & B1 & B2 & B3) & B4). cbn [bind].
  destruct (on_walk _ _ _ _ _ R3) as (z4 & -> & R4 & T4). cbn [bind]. destruct (on_exp _ _ _ _ _ R4) as (z5 & regs & -> & [R5 T5] & X1 & X2). cbn [bind].
  pose proof (stay_trans _ _ _ _ _ _ _ T1 (stay_trans _ _ _ _ _ _ _ T2 (stay_trans _ _ _ _ _ _ _ T3 (stay_trans _ _ _ _ _ _ _ T4 T5)))) as T05. clear T1 T2 T3 T4 T5 R1 R2 R3 R4.
  set (q := mkPd dev (h_type x) (h_multi x) pr L regs). assert (Al : alike (strip q) (pfn_of n d f x)).
  { unfold alike, strip, pfn_of. cbn [p_id p_type p_multi p_exp p_bars p_rom d_id d_type d_multi d_probed d_found snd q]. repeat (split; [reflexivity|]). split; [exact X1|]. split; [exact B4|]. exists lay. rewrite Ty. destruct bb; cbn [Z.b2z Z.eqb Pos.eqb]; auto. }
  assert (Kq : knows n q (pfn_of n d f x) h z5).
  { destruct R5 as (S5 & G5 & g5 & L5 & Li5). exists n, d, f, x, g5, bb. repeat (split; [first [reflexivity|lia|assumption]|]). split; [symmetry; exact Li5|]. split; [exact Al|]. split; reflexivity. }
  pose proof (mps_all n br pb q (pfn_of n d f x) h z5 Hn (proj1 R5) Kq (knows_br_stay _ _ _ _ _ _ _ T05 Kb)) as M. destruct (configure_mps m pb (pfn_of n d f x) h) as [h6|e]; cbn [bind]; [|rewrite M; reflexivity].
  destruct M as (z6 & -> & S6 & T6). cbn [bind]. destruct (on_stay _ _ _ _ _ _ _ R5 S6 (proj1 T6)) as (x6 & R6 & E6 & Ty6).
  destruct (on_tags _ _ _ _ _ (snd regs) X2 R6) as (z7 & -> & R7 & T7). cbn [bind]. rewrite <- Ty6. destruct (on_serr _ _ _ _ _ R7) as (z8 & -> & R8 & T8). cbn [bind]. destruct (on_init _ _ _ _ _ R8) as (irq & z9 & -> & R9 & T9). cbn [bind].
  pose proof (stay_trans _ _ _ _ _ _ _ T7 (stay_trans _ _ _ _ _ _ _ T8 T9)) as T69. exists z9, q. split; [reflexivity|]. split; [exact (proj1 R9)|]. split; [exact (stay_trans _ _ _ _ _ _ _ T05 (stay_trans _ _ _ _ _ _ _ T6 T69))|].
  exact (knows_stay _ _ _ _ _ _ _ (stay_trans _ _ _ _ _ _ _ T6 T69) Kq).
Qed.
(** Register 0 *)
Lemma id_all h z : system fuel h z -> exists z', cfg_read_dword (cr dev) 0 z = Ok (z', read_id h n d f) /\ system fuel h z' /\ stay n h z h z' /\ (hw_get n d f h <> None -> gain n (fun i => i = dev) z z').
Proof.
  intros Sy. pose proof (place fuel h z n d f Sy) as Pl. unfold read_id. destruct (hw_get n d f h) as [x|] eqn:G; destruct (leads n d f z) as [[g0 bb]|] eqn:Le; cbn [matches] in Pl; try contradiction.
  - assert (R0 : ready h z x bb (listing g0)) by (split; [exact Sy|]; split; [exact G|]; exists g0; auto). destruct (on_id _ _ _ _ _ R0) as (z1 & H & [R1 T1] & Ga). exists z1. split; [exact H|]. split; [exact (proj1 R1)|]. split; [exact T1|intros _; exact Ga].
  - exists z. split; [|split; [exact Sy|split; [apply stay_refl|congruence]]]. unfold cfg_read_dword, cr. rewrite (proj1 (tree_nobody n d f (tg dev) Hn Nh (crs dev) 0 4 [] z (proj1 Sy) Le ltac:(lia))). reflexivity.
Qed.

(** The bus numbers *)
Lemma on_buses h z x L : ready h z x true L -> exists z' v, cfg_read_dword (cr dev) 0x018 z = Ok (z', v) /\ 0 <= v < 2 ^ 32 /\ onward h z z' x true L.
Proof. intros R. destruct (go_on _ _ _ _ _ R) as (g & Le & _ & Ho & To & On). destruct (buses_ok fuel n d f (tg dev) (crs dev) z g true x Hn Nh Ho Le To eq_refl) as (v & H & V & Tu). eexists. exists v. split; [exact H|]. split; [exact V|exact (proj1 (On _ Tu))]. Qed.
Lemma on_put h z x L v : 0 <= v < 2 ^ 32 -> ready h z x true L -> let h' := hw_map (put_buses (v mod 256) (v / 256 mod 256) (v / 65536 mod 256)) n d f h in
  exists z', cfg_write_dword (cw dev) 0x018 v z = Ok z' /\ system fuel h' z' /\ stays n h z h' z' /\
    exists g g', leads n d f z = Some (g, true) /\ z' = instead g' n d f z /\ f_id g' = dev /\ bus_range g' = (v / 256 mod 256, v / 65536 mod 256) /\ (SpecAssign.whole g -> SpecAssign.whole g').
Proof.
  intros V R. cbv zeta. pose proof R as (Sy & G & _). destruct (go_on _ _ _ _ _ R) as (g & Le & _ & Ho & To & _). destruct (put_buses_ok fuel n d f (tg dev) z g true x Hn Nh Ho Le To v V eq_refl) as (g' & H & Tu & Ig).
  eexists. split; [exact H|]. split; [exact (one_system fuel h z n d f g g' true x _ Sy Nh G Le Tu)|]. split; [refine (one_stays fuel h z n d f g g' true x _ n Sy G Le (buses_mild _ _ _) _ Tu); right; lia|].
  exists g, g'. split; [exact Le|]. split; [reflexivity|]. split; [exact Ig|]. split; [exact (alive_looks fuel true _ _ (proj1 Tu) eq_refl)|]. exact (proj2 (proj2 (proj2 Tu)) eq_refl).
Qed.
End Setup.

(** ** Functions and devices *)
Definition here (n : Z) (h : hw) (z : net) (q : pdev) (p : pfn) : Prop := knows n q p h z /\ bus (d_id q) = n.
Lemma here_stay n h z h' z' q p : stays n h z h' z' -> here n h z q p -> here n h' z' q p.
Proof. intros S [K B]. split; [exact (knows_stays _ _ _ _ _ _ _ S K)|exact B]. Qed.
Lemma here_all n h z h' z' qs ps : stays n h z h' z' -> Forall2 (here n h z) qs ps -> Forall2 (here n h' z') qs ps.
Proof. intros S F. induction F; constructor; auto. exact (here_stay _ _ _ _ _ _ _ S H). Qed.
Lemma pid_ok n d f : 0 <= n <= 255 -> 0 <= d <= 31 -> 0 <= f <= 7 -> pcie_id_new n d f = Ok (mkId n d f).
Proof. intros A B C. unfold pcie_id_new. repeat match goal with |- context [if ?c then _ else _] => replace c with false by lia end. reflexivity. Qed.
(** The function numbers that the devices found have, all different *)
Definition caughts (P : pcie_id -> Prop) (n : Z) (qs : list pdev) (z z' : net) : Prop := gain n (fun i => In i (map d_id qs)) z z' /\ NoDup (map d_id qs) /\ forall i, In i (map d_id qs) -> P i.
Lemma caughts_nil P n h z h' z' : stay n h z h' z' -> caughts P n [] z z'.
Proof. intros [_ K]. split; [|split; [constructor|intros i []]]. intros D E last L I. apply (inv_less D); [intros i [H|[]]; exact H|]. exact (K D E last L I). Qed.
Lemma caughts_after P n qs h z h' z1 z' : stay n h z h' z1 -> caughts P n qs z1 z' -> caughts P n qs z z'.
Proof. intros [_ K] [G R]. split; [|exact R]. intros D E last L I. exact (G D E last L (K D E last L I)). Qed.
Lemma gain_app n qs qs' z z1 z' : gain n (fun i => In i (map d_id qs)) z z1 -> gain n (fun i => In i (map d_id qs')) z1 z' -> gain n (fun i => In i (map d_id (qs ++ qs'))) z z'.
Proof.
  intros A B D E last L I. apply A in I; [|exact L]. apply B in I; [|exact L]. revert I. apply inv_less. intros i. rewrite map_app, in_app_iff. tauto.
Qed.
Lemma nodup_parts {A} (l r : list A) : NoDup l -> NoDup r -> (forall x, In x l -> In x r -> False) -> NoDup (l ++ r).
Proof. intros Nl Nr H. induction Nl as [|a l Na Nl IH]; [exact Nr|]. cbn [app]. constructor; [|apply IH; intros x X; apply H; right; exact X]. rewrite in_app_iff. intros [X|X]; [exact (Na X)|exact (H a (or_introl eq_refl) X)]. Qed.
Lemma nodup_eight : NoDup (zrange 8).
Proof. cbv. repeat constructor; cbn [In]; intuition discriminate. Qed.
Lemma nodup_devs : NoDup (zrange 32).
Proof. cbv. repeat constructor; cbn [In]; intuition discriminate. Qed.
Definition in_dev (n d : Z) (fs : list Z) (i : pcie_id) : Prop := bus i = n /\ device i = d /\ In (func i) fs.
Definition in_devs (n : Z) (ds : list Z) (i : pcie_id) : Prop := bus i = n /\ In (device i) ds.
Lemma functions_all n d br pb : 0 <= n <= 255 -> 0 <= d <= 31 -> (n <> 0 \/ d <> 0) -> forall fs h z, Forall (fun f => 0 <= f <= 7) fs -> NoDup fs -> system fuel h z -> knows_br n br pb h z ->
  match scan_functions m pb n d fs h with
  | Ok (h', ps) => exists z' qs, cfg_functions cr cw fuel m br n d fs z = Ok (z', qs) /\ system fuel h' z' /\ stay n h z h' z' /\ Forall2 (here n h' z') qs ps /\ caughts (in_dev n d fs) n qs z z'
  | Err e => cfg_functions cr cw fuel m br n d fs z = Err e
  end.
Proof.
  intros Hn Hd N0. induction fs as [|f fs IH]; intros h z Hf Nf Sy Kb; cbn [scan_functions cfg_functions].
  - exists z, []. split; [reflexivity|]. split; [exact Sy|]. split; [apply stay_refl|]. split; [constructor|exact (caughts_nil _ n h z h z (stay_refl n h z))].
  - pose proof (Forall_inv Hf) as Hf1. pose proof (Forall_inv_tail Hf) as Hf2. assert (Nf2 : ~ In f fs /\ NoDup fs) by (inversion Nf; auto). destruct Nf2 as [Nf1 Nf2]. rewrite (pid_ok n d f Hn Hd Hf1). cbn [bind]. assert (Nh : mkId n d f <> id0) by (intros H; injection H; lia).
    destruct (id_all n d f Hn Nh h z Sy) as (z1 & -> & S1 & T1 & Ga). cbn [bind]. unfold read_id. specialize (IH h z1 Hf2 Nf2 S1 (knows_br_stay _ _ _ _ _ _ _ T1 Kb)) as IH1.
    assert (Skip : match scan_functions m pb n d fs h with
      | Ok (h', ps) => exists z' qs, cfg_functions cr cw fuel m br n d fs z1 = Ok (z', qs) /\ system fuel h' z' /\ stay n h z h' z' /\ Forall2 (here n h' z') qs ps /\ caughts (in_dev n d (f :: fs)) n qs z z'
      | Err e => cfg_functions cr cw fuel m br n d fs z1 = Err e end).
    { destruct (scan_functions m pb n d fs h) as [[h' ps]|e]; [|exact IH1]. destruct IH1 as (z' & qs & A & B & C & D & Ca). exists z', qs. split; [exact A|]. split; [exact B|]. split; [exact (stay_trans _ _ _ _ _ _ _ T1 C)|]. split; [exact D|]. apply (caughts_after _ _ _ _ _ _ _ _ T1). destruct Ca as (C1 & C2 & C3). split; [exact C1|]. split; [exact C2|]. intros i Hi. destruct (C3 i Hi) as (X & Y & Z). repeat split; auto. right. exact Z. }
    destruct (hw_get n d f h) as [x|] eqn:G; [|exact Skip]. destruct (h_id x =? 0xffffffff); [exact Skip|]. clear Skip IH1.
    pose proof (setup_all n d f Hn Nh br pb h z1 x S1 G (knows_br_stay _ _ _ _ _ _ _ T1 Kb)) as Su. destruct (setup m pb n d f x h) as [[h2 p]|e] eqn:Es; cbn [bind]; [|rewrite Su; reflexivity].
    destruct Su as (z2 & q & Ec & S2 & T2 & K2). rewrite Ec. cbn [bind]. pose proof (stay_trans _ _ _ _ _ _ _ T1 T2) as T02.
    assert (Iq : d_id q = mkId n d f).
    { pose proof K2 as (b & d0 & f0 & x0 & g0 & br0 & I & _ & _ & _ & _ & _ & A & _). destruct A as (A & _). unfold setup in Es. destruct (configure_mps m pb (pfn_of n d f x) h); [|discriminate]. injection Es as _ <-.
      cbn [strip p_id pfn_of] in A. exact A. }
    assert (Bq : bus (d_id q) = n) by (rewrite Iq; reflexivity).
    assert (G2 : gain n (fun i => In i (map d_id [q])) z z2).
    { intros D E last L I. apply (Ga ltac:(discriminate) D E last L) in I. apply (proj2 T2 _ _ _ L) in I. revert I. apply inv_less. intros i [Hi|[Hi|[]]]; [left; exact Hi|right; congruence]. }
    assert (Mu : d_multi q = p_multi p) by (pose proof K2 as (b & d0 & f0 & x0 & g0 & br0 & _ & _ & _ & _ & _ & _ & A & _); destruct A as (_ & _ & A & _); exact A). rewrite Mu.
    destruct (p_multi p); [|exists z2, [q]; split; [reflexivity|]; split; [exact S2|]; split; [exact T02|]; split; [constructor; [split; assumption|constructor]|]; split; [exact G2|]; split; [constructor; [intros []|constructor]|]; intros i [<- |[]]; rewrite Iq; repeat split; left; reflexivity].
    specialize (IH h2 z2 Hf2 Nf2 S2 (knows_br_stay _ _ _ _ _ _ _ T02 Kb)). destruct (scan_functions m pb n d fs h2) as [[h3 ps]|e]; cbn [bind]; [|rewrite IH; reflexivity].
    destruct IH as (z3 & qs & -> & S3 & T3 & F3 & C1 & C2 & C3). cbn [bind]. exists z3, (q :: qs). split; [reflexivity|]. split; [exact S3|]. split; [exact (stay_trans _ _ _ _ _ _ _ T02 T3)|]. split; [constructor; [|exact F3]; apply (here_stay _ _ _ _ _ _ _ (proj1 T3)); split; assumption|]. split; [|split].
    + exact (gain_app n [q] qs z z2 z3 G2 C1).
    + cbn [map]. constructor; [|exact C2]. intros Hi. apply C3 in Hi. rewrite Iq in Hi. destruct Hi as (_ & _ & Hi). exact (Nf1 Hi).
    + intros i [<- |Hi]; [rewrite Iq; repeat split; left; reflexivity|]. destruct (C3 i Hi) as (X & Y & Z). repeat split; auto. right. exact Z.
Qed.
Lemma one_alike n br pb h z : knows_br n br pb h z -> only_one_child (option_map strip br) = only_one_child pb.
Proof. intros K. destruct br as [q|], pb as [p|]; cbn [knows_br] in K; try contradiction; [|reflexivity]. destruct K as (b & d & f & x & g & bb & _ & _ & _ & _ & _ & _ & (_ & _ & _ & A & _) & _). cbn [option_map only_one_child]. rewrite A. reflexivity. Qed.
Lemma devices_all n br pb : 0 <= n <= 255 -> forall ds h z, Forall (fun d => 0 <= d <= 31) ds -> NoDup ds -> system fuel h z -> knows_br n br pb h z ->
  match scan_devices m pb n ds h with
  | Ok (h', ps) => exists z' qs, cfg_devices cr cw fuel m br n ds z = Ok (z', qs) /\ system fuel h' z' /\ stay n h z h' z' /\ Forall2 (here n h' z') qs ps /\ caughts (in_devs n ds) n qs z z'
  | Err e => cfg_devices cr cw fuel m br n ds z = Err e
  end.
Proof.
  intros Hn. induction ds as [|d ds IH]; intros h z Hd Nd Sy Kb; cbn [scan_devices cfg_devices].
  - exists z, []. split; [reflexivity|]. split; [exact Sy|]. split; [apply stay_refl|]. split; [constructor|exact (caughts_nil _ n h z h z (stay_refl n h z))].
  - pose proof (Forall_inv Hd) as Hd1. pose proof (Forall_inv_tail Hd) as Hd2. assert (Nd2 : ~ In d ds /\ NoDup ds) by (inversion Nd; auto). destruct Nd2 as [Nd1 Nd2].
    assert (More : forall i, in_devs n ds i -> in_devs n (d :: ds) i) by (intros i [X Y]; split; [exact X|right; exact Y]). assert (Wide : forall qs z z', caughts (in_devs n ds) n qs z z' -> caughts (in_devs n (d :: ds)) n qs z z') by (intros qs0 za zb (X & Y & Z); split; [exact X|]; split; [exact Y|auto]). destruct ((n =? 0) && (d =? 0)) eqn:N0; [specialize (IH h z Hd2 Nd2 Sy Kb); destruct (scan_devices m pb n ds h) as [[h' ps]|e]; [|exact IH]; destruct IH as (z' & qs & A & B & C & D & Ca); exists z', qs; auto 8|]. assert (N1 : n <> 0 \/ d <> 0) by lia.
    rewrite (pid_ok n d 0 Hn Hd1 ltac:(lia)). cbn [bind]. assert (Nh : mkId n d 0 <> id0) by (intros H; injection H; lia). destruct (id_all n d 0 Hn Nh h z Sy) as (z1 & -> & S1 & T1 & _). cbn [bind].
    pose proof (knows_br_stay _ _ _ _ _ _ _ T1 Kb) as Kb1. destruct (no_device (read_id h n d 0)).
    { specialize (IH h z1 Hd2 Nd2 S1 Kb1). destruct (scan_devices m pb n ds h) as [[h' ps]|e]; [|exact IH]. destruct IH as (z' & qs & A & B & C & D & Ca). exists z', qs. split; [exact A|]. split; [exact B|]. split; [exact (stay_trans _ _ _ _ _ _ _ T1 C)|]. split; [exact D|]. apply (caughts_after _ _ _ _ _ _ _ _ T1), Wide, Ca. }
    assert (F8 : Forall (fun f => 0 <= f <= 7) (zrange 8)) by (apply Forall_forall; intros k Hk; apply in_zrange in Hk; lia).
    pose proof (functions_all n d br pb Hn Hd1 N1 (zrange 8) h z1 F8 nodup_eight S1 Kb1) as Fa. destruct (scan_functions m pb n d (zrange 8) h) as [[h2 ps]|e]; cbn [bind]; [|rewrite Fa; reflexivity].
    destruct Fa as (z2 & qs & -> & S2 & T2 & F2 & C1 & C2 & C3). cbn [bind]. pose proof (stay_trans _ _ _ _ _ _ _ T1 T2) as T02. rewrite (one_alike _ _ _ _ _ Kb).
    destruct (only_one_child pb); [exists z2, qs; repeat (split; [solve [auto]|]); split; [intros D E last L I; exact (C1 D E last L (proj2 T1 D E last L I))|]; split; [exact C2|]; intros i Hi; destruct (C3 i Hi) as (X & Y & _); split; [exact X|left; symmetry; exact Y]|]. specialize (IH h2 z2 Hd2 Nd2 S2 (knows_br_stay _ _ _ _ _ _ _ T02 Kb)). destruct (scan_devices m pb n ds h2) as [[h3 rs]|e]; cbn [bind]; [|rewrite IH; reflexivity].
    destruct IH as (z3 & qs' & -> & S3 & T3 & F3 & G1 & G2 & G3). cbn [bind]. exists z3, (qs ++ qs'). split; [reflexivity|]. split; [exact S3|]. split; [exact (stay_trans _ _ _ _ _ _ _ T02 T3)|]. split; [apply Forall2_app; [|exact F3]; exact (here_all _ _ _ _ _ _ _ (proj1 T3) F2)|]. split; [|split].
    + apply (gain_app n qs qs' z z2 z3); [|exact G1]. intros D E last L I. exact (C1 D E last L (proj2 T1 D E last L I)).
    + rewrite map_app. apply nodup_parts; [exact C2|exact G2|]. intros i Hi Hi'. apply C3 in Hi. apply G3 in Hi'. destruct Hi as (_ & Y & _). destruct Hi' as [_ Y']. rewrite Y in Y'. exact (Nd1 Y').
    + intros i. rewrite map_app, in_app_iff. intros [Hi|Hi]; [|apply More, G3, Hi]. destruct (C3 i Hi) as (X & Y & _). split; [exact X|left; symmetry; exact Y].
Qed.

(** ** Bridges *)
Definition bus_word (v n c l : Z) : Z := Z.lor (Z.lor (Z.lor (Z.land v 0xff000000) (Z.shiftl n 0)) (Z.shiftl c 8)) (Z.shiftl l 16).
Lemma bus_word_ok v n c l : 0 <= v < 2 ^ 32 -> 0 <= n < 2 ^ 8 -> 0 <= c < 2 ^ 8 -> 0 <= l < 2 ^ 8 ->
  0 <= bus_word v n c l < 2 ^ 32 /\ bus_word v n c l mod 256 = n /\ bus_word v n c l / 256 mod 256 = c /\ bus_word v n c l / 65536 mod 256 = l.
Proof.
  intros V N C L. change 256 with (2 ^ 8). change 65536 with (2 ^ 16). rewrite <- !Z.land_ones, <- !Z.shiftr_div_pow2 by lia. change (Z.ones 8) with 255. unfold bus_word. split; [|split; [bits|split; bits]].
  repeat apply ProofsFields.lor_range; try lia; rewrite ?Z.shiftl_0_r, ?Z.shiftl_mul_pow2 by lia; try lia. replace (Z.land v 0xff000000) with (Z.land (Z.land v 0xff000000) (Z.ones 32)) by (rewrite <- Z.land_assoc; reflexivity).
  rewrite Z.land_ones by lia. apply Z.mod_pos_bound. lia.
Qed.

(** The function numbers of the devices of a bus and below *)
Definition ids (ds : list (pfn * option pbus)) : list pcie_id := map p_id (bus_fns (PBus 0 0 0 ds)).
Lemma ids_cons p o ds : ids ((p, o) :: ds) = p_id p :: match o with Some b => map p_id (bus_fns b) | None => [] end ++ ids ds.
Proof. unfold ids. cbn [bus_fns flat_map]. rewrite map_app. destruct o; reflexivity. Qed.
Lemma ids_bus n p l ds : map p_id (bus_fns (PBus n p l ds)) = ids ds.
Proof. reflexivity. Qed.
(** While buses are assigned: what is caught remains so, all devices in the list are caught, and only bridges in [S] get buses *)
Definition grown (last last' : Z) (S : pcie_id -> Prop) (D : pcie_id -> Prop) (E : pcie_id -> Z -> Prop) (ds : list (pfn * option pbus)) (z' : net) : Prop :=
  exists D' E', inv D' E' last' z' /\ (forall i, D i -> D' i) /\ (forall i, In i (ids ds) -> D' i) /\ (forall i c, E i c -> E' i c) /\ (forall i c, E' i c -> E i c \/ S i \/ last < bus i).
(** Scanning a bus, on both sides *)
Definition scans (cs : pdev -> Z -> net -> res (net * list (pfn * option pbus) * Z)) (hs : pfn -> Z -> hw -> res (hw * list (pfn * option pbus) * Z)) : Prop :=
  (forall q p h z, exists e, hs p 256 h = Err e /\ cs q 256 z = Err e) /\
  forall q p n h z, 0 <= n <= 255 -> system fuel h z -> knows n q p h z ->
  match hs p n h with
  | Ok (h', ds, last) => exists z' ds', cs q n z = Ok (z', ds', last) /\ system fuel h' z' /\ stays n h z h' z' /\ same_devs ds' ds /\ n <= last <= 255 /\
      (forall D E, inv D E n z -> (forall i c, E i c -> bus i < n) -> grown n last (fun i => bus i = n) D E ds' z')
  | Err e => cs q n z = Err e
  end.
Lemma bridges_all cs hs n : scans cs hs -> 0 <= n <= 255 -> forall qs ps, forall last h z, n <= last <= 255 -> system fuel h z -> Forall2 (here n h z) qs ps ->
  match scan_bridges hs n ps last h with
  | Ok (h', ds, last') => exists z' ds', cfg_bridges cr cw cs n qs last z = Ok (z', ds', last') /\ system fuel h' z' /\ stays n h z h' z' /\ same_devs ds' ds /\ last <= last' <= 255 /\
      (forall D E, inv D E last z -> NoDup (map d_id qs) -> (forall i, In i (map d_id qs) -> D i /\ forall c, ~ E i c) -> grown last last' (fun i => In i (map d_id qs)) D E ds' z')
  | Err e => cfg_bridges cr cw cs n qs last z = Err e
  end.
Proof.
  intros [I256 IS] Hn. induction qs as [|q qs IH]; intros ps last h z Hl Sy F; [inversion F|destruct ps as [|p ps]; [inversion F|]]; cbn [scan_bridges cfg_bridges].
  { exists z, []. split; [reflexivity|]. split; [exact Sy|]. split; [apply stays_refl|]. split; [constructor|]. split; [lia|]. intros D E I _ _. exists D, E. split; [exact I|]. split; [auto|]. split; [intros i []|]. auto. }
  assert (F1 : here n h z q p /\ Forall2 (here n h z) qs ps) by (inversion F; auto). clear F. destruct F1 as [[K Bq] F]. pose proof K as (b & d & f & x & g & br & Iq & _ & Nh & G & Le & Li & Al & _ & Ty). rewrite Iq in Bq. cbn [bus] in Bq. subst b.
  assert (Ep : p_id p = mkId n d f) by (destruct Al as (A & _); cbn [strip p_id] in A; congruence). assert (Tq : p_type (strip q) = p_type p) by (destruct Al as (_ & A & _); exact A).
  replace (p_is_bridge (strip q)) with (p_is_bridge p) by (unfold p_is_bridge; rewrite Tq; reflexivity). destruct (p_is_bridge p) eqn:Pb.
  2:{ specialize (IH ps last h z Hl Sy F). destruct (scan_bridges hs n ps last h) as [[[h' r] last']|e]; cbn [bind]; [|rewrite IH; reflexivity]. destruct IH as (z' & r' & -> & S1 & T1 & D & Hl' & Gr). cbn [bind].
      exists z', ((strip q, None) :: r'). split; [reflexivity|]. split; [exact S1|]. split; [exact T1|]. split; [constructor; assumption|]. split; [exact Hl'|]. intros D0 E0 I N C. cbn [map] in N, C. assert (N2 : NoDup (map d_id qs)) by (inversion N; auto).
      destruct (Gr D0 E0 I N2 (fun i Hi => C i (or_intror Hi))) as (D' & E' & I' & G1 & G2 & G3 & G4). exists D', E'. split; [exact I'|]. split; [exact G1|]. split; [|split; [exact G3|]].
      - intros i. rewrite ids_cons. intros [Hi|Hi]; [|exact (G2 i Hi)]. subst i. apply G1. destruct (C (d_id q) (or_introl eq_refl)) as [X _]. exact X.
      - intros i c Hi. destruct (G4 i c Hi) as [X|[X|X]]; [left; exact X|right; left; right; exact X|right; right; exact X]. }
  pose proof (place fuel h z n d f Sy) as Pl. rewrite G, Le in Pl. cbn [matches] in Pl. assert (Eb : br = true) by (destruct br; [reflexivity|]; unfold p_is_bridge in Pb; rewrite Ty, (t_type _ _ _ _ Pl) in Pb; discriminate). subst br. clear Pl.
  assert (R0 : ready n d f h z x true (listing g)) by (split; [exact Sy|]; split; [exact G|]; exists g; auto). rewrite Iq, Li. destruct (on_crs n d f Hn Nh _ _ _ _ _ R0) as (z1 & -> & R1 & T1). cbn [bind]. cbv zeta.
  destruct (on_buses n d f Hn Nh _ _ _ _ R1) as (z2 & v & -> & V & R2 & T2). cbn [bind]. unfold p_at. rewrite Ep. cbn [bus device func].
  fold (bus_word v n (last + 1) 255). destruct (Z.eq_dec last 255) as [-> |Nl].
  { change (255 + 1) with 256 in *. set (w := bus_word v n 256 255). assert (W : exists z3, cfg_write_dword (cw (mkId n d f)) 24 w z2 = Ok z3).
    { assert (Hw : 0 <= w < 2 ^ 32).
      { subst w. unfold bus_word. repeat apply ProofsFields.lor_range; try lia; rewrite ?Z.shiftl_0_r, ?Z.shiftl_mul_pow2 by lia; try lia. replace (Z.land v 0xff000000) with (Z.land (Z.land v 0xff000000) (Z.ones 32)) by (rewrite <- Z.land_assoc; reflexivity).
        rewrite Z.land_ones by lia. apply Z.mod_pos_bound. lia. }
      destruct (on_put n d f Hn Nh h z2 x (listing g) w Hw R2) as (z3 & E & _). exists z3. exact E. }
    destruct W as (z3 & ->). cbn [bind]. destruct (I256 q p (hw_map (put_buses n 256 255) n d f h) z3) as (e & -> & ->). reflexivity. }
  destruct (bus_word_ok v n (last + 1) 255 V ltac:(lia) ltac:(lia) ltac:(lia)) as (W0 & W1 & W2 & W3). set (w := bus_word v n (last + 1) 255) in *.
  destruct (on_put n d f Hn Nh h z2 x (listing g) w W0 R2) as (z3 & -> & S3 & T3 & g2 & g3 & Le2 & Ez3 & Ig3 & Bg3 & Wh3). cbn [bind]. rewrite W1, W2, W3 in S3, T3. rewrite W2, W3 in Bg3. set (h3 := hw_map (put_buses n (last + 1) 255) n d f h) in *.
  pose proof (stays_trans _ _ _ _ _ _ _ (proj1 T1) (stays_trans _ _ _ _ _ _ _ (proj1 T2) T3)) as T03. clear W1 W2 W3. pose proof (knows_mono n (last + 1) _ _ _ _ ltac:(lia) (knows_stays _ _ _ _ _ _ _ T03 K)) as K3.
  specialize (IS q p (last + 1) h3 z3 ltac:(lia) S3 K3). destruct (hs p (last + 1) h3) as [[[h4 ds] last4]|e]; cbn [bind]; [|rewrite IS; reflexivity]. destruct IS as (z4 & ds' & -> & S4 & T4 & D4 & Hl4 & Gr4). cbn [bind].
  apply (stays_mono n (last + 1)) in T4; [|lia]. pose proof (stays_trans _ _ _ _ _ _ _ T03 T4) as T04. destruct (on_stay n d f Hn _ _ _ _ _ _ _ R0 S4 T04) as (x4 & R4 & _).
  fold (bus_word w n (last + 1) last4). destruct (bus_word_ok w n (last + 1) last4 W0 ltac:(lia) ltac:(lia) ltac:(lia)) as (U0 & U1 & U2 & U3). set (w4 := bus_word w n (last + 1) last4) in *.
  destruct (on_put n d f Hn Nh h4 z4 x4 (listing g) w4 U0 R4) as (z5 & -> & S5 & T5 & g4 & g5 & Le4 & Ez5 & Ig5 & Bg5 & Wh5). cbn [bind]. rewrite U1, U2, U3 in S5, T5. rewrite U2, U3 in Bg5. set (h5 := hw_map (put_buses n (last + 1) last4) n d f h4) in *.
  pose proof (stays_trans _ _ _ _ _ _ _ T04 T5) as T05. specialize (IH ps last4 h5 z5 ltac:(lia) S5 (here_all _ _ _ _ _ _ _ T05 F)).
  destruct (scan_bridges hs n ps last4 h5) as [[[h6 r] last6]|e]; cbn [bind]; [|rewrite IH; reflexivity]. destruct IH as (z6 & r' & -> & S6 & T6 & D6 & Hl6 & Gr6). cbn [bind].
  exists z6. eexists. split; [reflexivity|]. split; [exact S6|]. split; [exact (stays_trans _ _ _ _ _ _ _ T05 T6)|]. split; [constructor; [exact Al|constructor; exact D4|exact D6]|]. split; [lia|].
  intros D E I N C. cbn [map] in N, C. assert (N2 : ~ In (d_id q) (map d_id qs) /\ NoDup (map d_id qs)) by (inversion N; auto). destruct N2 as [N1 N2]. rewrite Iq in C, N1.
  apply (proj2 T1 D E last ltac:(lia)) in I. apply (proj2 T2 D E last ltac:(lia)) in I. destruct (C (mkId n d f) (or_introl eq_refl)) as [Dq Eq].
  assert (Al2 : alive g2 true = false).
  { destruct (alive g2 true) eqn:X; [|reflexivity]. exfalso. apply (Eq (fst (bus_range g2))). apply (inv_buses D E last z2 n d f g2 true I ltac:(lia) Le2). auto. }
  assert (Al3 : alive g3 true = true) by (unfold alive; rewrite Bg3; reflexivity).
  assert (I3 : inv D (also E (mkId n d f) (last + 1)) (last + 1) z3) by (rewrite Ez3; apply (inv_open D E last z2 n d f g2 true g3 I ltac:(lia) ltac:(lia) Le2 Ig3 Al2 Al3); [rewrite Bg3; reflexivity|intros _; exact Wh3]).
  assert (Bu : forall i c, also E (mkId n d f) (last + 1) i c -> bus i < last + 1) by (intros i c [Hi|[-> _]]; [destruct I as (_ & _ & _ & _ & _ & X); apply X in Hi; lia|cbn [bus]; lia]).
  destruct (Gr4 D _ I3 Bu) as (D4' & E4 & I4 & G41 & G42 & G43 & G44).
  assert (O4 : alive g4 true = true /\ fst (bus_range g4) = last + 1) by (apply (inv_buses D4' E4 last4 z4 n d f g4 true I4 ltac:(lia) Le4); apply G43; right; auto). destruct O4 as [Al4 Se4].
  assert (I5 : inv D4' E4 last4 z5).
  { rewrite Ez5. apply (inv_less (fun i => D4' i \/ i = mkId n d f)); [tauto|]. apply (inv_access D4' E4 last4 z4 n d f g4 true g5 I4 ltac:(lia) Le4 Ig5).
    - rewrite Al4. unfold alive. rewrite Bg5. cbn [snd]. lia.
    - intros _. rewrite Bg5, Se4. reflexivity.
    - intros _. exact Wh5. }
  assert (Bs : forall i, In i (map d_id qs) -> bus i <= last /\ i <> mkId n d f).
  { intros i Hi. split; [|intros ->; exact (N1 Hi)]. destruct (C i (or_intror Hi)) as [X _]. destruct I as (_ & _ & _ & _ & Y & _). exact (Y i X). }
  destruct (Gr6 D4' E4 I5 N2) as (D' & E' & I6 & G61 & G62 & G63 & G64).
  { intros i Hi. destruct (C i (or_intror Hi)) as [X Y]. destruct (Bs i Hi) as [Bi Ni]. split; [exact (G41 i X)|]. intros c Hc. destruct (G44 i c Hc) as [[Z|[Z _]]|[Z|Z]]; [exact (Y c Z)|exact (Ni Z)|lia|lia]. }
  exists D', E'. split; [exact I6|]. split; [auto|]. split; [|split].
  - intros i. rewrite ids_cons, ids_bus. intros [Hi|Hi]; [subst i; cbn [strip p_id]; rewrite Iq; auto|]. apply in_app_or in Hi. destruct Hi as [Hi|Hi]; [exact (G61 i (G42 i Hi))|exact (G62 i Hi)].
  - intros i c Hi. apply G63, G43. left. exact Hi.
  - intros i c Hi. cbn [map In]. rewrite Iq. destruct (G64 i c Hi) as [X|[X|X]]; [|tauto|right; right; lia]. destruct (G44 i c X) as [[Y|[Y _]]|[Y|Y]]; [left; exact Y|right; left; left; symmetry; exact Y|right; right; lia|right; right; lia].
Qed.

(** ** The scan *)
Lemma devices_256 br pb h z : scan_devices m pb 256 (zrange 32) h = Err ValueError /\ cfg_devices cr cw fuel m br 256 (zrange 32) z = Err ValueError.
Proof. split; reflexivity. Qed.
Lemma scan_step depth n br pb h z : (forall k, (k < depth)%nat -> scans (fun q => cfg_scan cr cw fuel m k (Some q)) (fun p => scan k m (Some p))) -> 0 <= n <= 255 -> system fuel h z -> knows_br n br pb h z ->
  match scan depth m pb n h with
  | Ok (h', ds, last) => exists z' ds', cfg_scan cr cw fuel m depth br n z = Ok (z', ds', last) /\ system fuel h' z' /\ stays n h z h' z' /\ same_devs ds' ds /\ n <= last <= 255 /\
      (forall D E, inv D E n z -> (forall i c, E i c -> bus i < n) -> grown n last (fun i => bus i = n) D E ds' z')
  | Err e => cfg_scan cr cw fuel m depth br n z = Err e
  end.
Proof.
  intros IH Hn Sy Kb. destruct depth as [|depth]; [reflexivity|]. cbn [scan cfg_scan]. assert (F32 : Forall (fun f => 0 <= f <= 31) (zrange 32)) by (apply Forall_forall; intros k Hk; apply in_zrange in Hk; lia).
  pose proof (devices_all n br pb Hn (zrange 32) h z F32 nodup_devs Sy Kb) as Da. destruct (scan_devices m pb n (zrange 32) h) as [[h1 ps]|e]; cbn [bind]; [|rewrite Da; reflexivity]. destruct Da as (z1 & qs & -> & S1 & T1 & F1 & C1 & C2 & C3). cbn [bind].
  pose proof (bridges_all _ _ n (IH depth ltac:(lia)) Hn qs ps n h1 z1 ltac:(lia) S1 F1) as Ba. destruct (scan_bridges (fun p => scan depth m (Some p)) n ps n h1) as [[[h2 ds] last]|e]; [|exact Ba].
  destruct Ba as (z2 & ds' & A & S2 & T2 & D2 & H2 & Gr). exists z2, ds'. split; [exact A|]. split; [exact S2|]. split; [exact (stays_trans _ _ _ _ _ _ _ (proj1 T1) T2)|]. split; [exact D2|]. split; [exact H2|].
  intros D E I Bu. apply (C1 D E n ltac:(lia)) in I. destruct (Gr _ E I C2) as (D' & E' & I' & G1 & G2 & G3 & G4).
  - intros i Hi. split; [right; exact Hi|]. intros c Hc. apply Bu in Hc. destruct (C3 i Hi) as [X _]. lia.
  - exists D', E'. split; [exact I'|]. split; [auto|]. split; [exact G2|]. split; [exact G3|]. intros i c Hi. destruct (G4 i c Hi) as [X|[X|X]]; [left; exact X|right; left; exact (proj1 (C3 i X))|right; right; exact X].
Qed.
Lemma scans_all : forall depth, scans (fun q => cfg_scan cr cw fuel m depth (Some q)) (fun p => scan depth m (Some p)).
Proof.
  intros depth. induction depth as [depth IH] using (well_founded_induction lt_wf). split.
  - intros q p h z. destruct depth as [|depth]; [exists OutOfFuel; split; reflexivity|]. exists ValueError. destruct (devices_256 (Some q) (Some p) h z) as [A B]. cbn [scan cfg_scan]. rewrite A, B. split; reflexivity.
  - intros q p n h z Hn Sy K. exact (scan_step depth n (Some q) (Some p) h z IH Hn Sy K).
Qed.
Theorem enum_refines h z : system fuel h z ->
  match scan_root m h with
  | Ok (h', b) => exists z' b', cfg_scan_root cr cw fuel m z = Ok (z', b') /\ system fuel h' z' /\ same_bus b' b /\
      (inv (fun _ => False) (fun _ _ => False) 0 z -> exists D E last, inv D E last z' /\ forall i, In i (map p_id (bus_fns b')) -> D i)
  | Err e => cfg_scan_root cr cw fuel m z = Err e
  end.
Proof.
  intros Sy. unfold scan_root, cfg_scan_root. pose proof (scan_step 257 0 None None h z (fun k _ => scans_all k) ltac:(lia) Sy I) as Sc. destruct (scan 257 m None 0 h) as [[[h' ds] last]|e]; cbn [bind]; [|rewrite Sc; reflexivity].
  destruct Sc as (z' & ds' & -> & S1 & _ & D & _ & Gr). cbn [bind]. exists z'. eexists. split; [reflexivity|]. split; [exact S1|]. split; [constructor; exact D|].
  intros I0. destruct (Gr _ _ I0 (fun i c (F : False) => match F with end)) as (D' & E' & I' & _ & G & _). exists D', E', last. split; [exact I'|]. exact G.
Qed.
End Scan.
