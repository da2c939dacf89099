(** Programs of the host in a tree, as programs on the function that the bus numbers lead to. *)
From Verif Require Import Base BaseProofs SpecTlp ModelUtils ModelTlp ModelAttrs ModelCapList ModelConfig ModelFunction ModelHost ModelPci ModelEnum ModelTree ModelTreeCfg SpecConfig SpecHost SpecTree ModelScan SpecScan
  ProofsUtils ProofsHost ProofsProbe ProofsTreeUpAll ProofsTreeCfgAll ProofsScan ProofsScanAll ProofsEnumPar ProofsEnumWr.

Lemma answer_state br t g g' c : completer_id t = mkId (bus (completer_id t)) (device (f_id g)) (func (f_id g)) -> fmt_type t = Ok CFG_READ_0 -> cfg_answer br t g = Ok (g', c) -> g' = with_id (completer_id t) g.
Proof.
  intros C T. unfold cfg_answer. rewrite T. cbn [bind]. unfold handle_config_0_read, cfg_target. rewrite C. cbn [device func]. rewrite !Z.eqb_refl. cbn [andb]. cbv zeta. unfold capture. rewrite C. cbn [bus device func].
  set (dev := mkId _ _ _). destruct (cfg_rd br (with_id dev g) _) as [[v|]|e]; try discriminate. cbn [bind]. unfold struct_pack_le. destruct (_ && _); [|discriminate]. cbn [bind].
  pose proof (le_bytes_length 4 v) as L. unfold fn_upstream_send. destruct (tlp_check _) as [[|]|e]; cbn [bind py_assert]; try discriminate.
  set (cpl := set_byte_count _ _). replace (ep cpl) with false by reflexivity. rewrite andb_false_r. intros E. injection E as <- _. reflexivity.
Qed.
Section Via.
Context (b d f : Z) (tg : Z -> Z) (crs : option bool) (z0 : net) (g0 : fnc) (br : bool) (P : Z -> Prop).
Hypothesis Bb : 0 <= b <= 255.
Notation dev := (mkId b d f).
Hypothesis Nh : dev <> id0.
Hypothesis Ho : at_host z0.
Hypothesis Le : leads b d f z0 = Some (g0, br).
Notation tr := (cfg_ask tg).
Notation fn := (cfg_deliver (cfg_rd br) (cfg_wr br) tg).
Lemma read_state fuel : forall addr rem acc g g' dd, at_id dev g -> config_read_loop fuel fn crs dev addr rem acc g = Ok (g', dd) -> g' = g \/ g' = with_id dev g.
Proof.
  induction fuel as [|fuel IH]; intros addr rem acc g g' dd A; cbn [config_read_loop]; [intros E; injection E as <- _; auto|]. destruct (0 <? rem); [|intros E; injection E as <- _; auto]. cbv zeta. set (k := Z.min rem (4 - addr mod 4)). fold (cfg_req CFG_READ_1 dev).
  set (u := snd (set_addr_be addr k (cfg_req CFG_READ_1 dev))). destruct (fn g u) as [[g1 cs]|e] eqn:D; [|discriminate]. cbn [bind]. destruct (config_read_data crs u cs) as [d1|e]; [|discriminate]. cbn [bind]. intros E.
  rewrite (deliver_eq br tg g u (read_one addr k dev)) in D. destruct (cfg_answer br _ g) as [[g2 c]|e] eqn:An; [|discriminate D]. cbn [bind] in D. injection D as -> _.
  assert (C : completer_id (set_type_ 4 (set_tag (tg (address u)) u)) = dev) by (change (completer_id u = dev); exact (read_who b d f addr k)).
  assert (T : fmt_type (set_type_ 4 (set_tag (tg (address u)) u)) = Ok CFG_READ_0) by (subst u; unfold set_addr_be; cbv zeta; destruct (_ =? 0); [|destruct (_ =? 1)]; reflexivity).
  pose proof (at_id_eq dev g A) as Ei. apply answer_state in An; [|rewrite C; symmetry; exact Ei|exact T]. rewrite C in An. subst g1. right.
  destruct (IH _ _ _ (with_id dev g) g' dd (conj eq_refl eq_refl) E) as [-> | ->]; reflexivity.
Qed.
Definition via (z : net) (g : fnc) : Prop := z = instead g b d f z0 /\ wrs br dev P g0 g.
Definition fits_in (addr n : Z) : Prop := 0 < n /\ addr mod 4 + n <= 4 /\ P (addr / 4).
Lemma via_here z g : via z g -> at_host z /\ leads b d f z = Some (g, br) /\ at_id dev g /\ forall g', instead g' b d f z = instead g' b d f z0.
Proof.
  intros [-> W]. pose proof (leads_at b d f z0 g0 br Le) as A0. destruct (wrs_id br dev P g0 g W) as [-> | E].
  - rewrite (instead_same b d f z0 g0 br Le). auto.
  - assert (D1 : device (f_id g) = d) by (rewrite E; reflexivity). assert (F1 : func (f_id g) = f) by (rewrite E; reflexivity).
    split; [apply host_instead; [rewrite E; exact Nh|exact Ho]|]. split; [exact (leads_instead b d f z0 g0 br g Le D1 F1)|]. split; [split; [exact D1|exact F1]|]. intros g'. exact (instead_twice b d f z0 g g' D1 F1).
Qed.
Lemma via_start : via z0 g0.
Proof. split; [symmetry; exact (instead_same b d f z0 g0 br Le)|constructor]. Qed.
Lemma via_read addr n z g : via z g -> simr (RV via) (config_read tr crs dev addr n z) (config_read fn crs dev addr n g).
Proof.
  intros V. destruct (via_here z g V) as (H & L & A & T). rewrite (tree_reads b d f tg Bb Nh crs addr n z g br H L). unfold config_read at 1 2. destruct (config_read_loop _ fn crs dev addr n [] g) as [[g' dd]|e] eqn:E; cbn [bind]; [|reflexivity].
  split; [|reflexivity]. cbn [fst]. split; [apply T|]. destruct (read_state _ addr n [] g g' dd A E) as [-> | ->]; [exact (proj2 V)|constructor; exact (proj2 V)].
Qed.
Lemma via_write addr dat z g : via z g -> fits_in addr (zlen dat) -> bytes_ok dat -> simr via (config_write tr dev addr dat z) (config_write fn dev addr dat g).
Proof.
  intros V (F1 & F2 & F3) B. destruct (via_here z g V) as (H & L & A & T). rewrite (tree_writes b d f tg Bb Nh addr dat z g br H L).
  destruct (ProofsProbe.write_one (cfg_rd br) (cfg_wr br) tg dev addr dat g A) as (x & be & -> & Be & _); [intros ->; cbn in F1; lia|exact F2|exact B|]. cbn [bind]. split; [apply T|]. constructor; [exact (proj2 V)|exact F3|exact Be].
Qed.
Lemma via_val {A} (X : res (net * A)) (Y : res (fnc * A)) g' v : simr (RV via) X Y -> Y = Ok (g', v) -> X = Ok (instead g' b d f z0, v) /\ wrs br dev P g0 g'.
Proof. intros S ->. destruct X as [[z w]|e]; [|destruct S]. destruct S as [[V W] E]. cbn [fst snd] in V, W, E. subst z w. split; [reflexivity|exact W]. Qed.
Lemma via_st (X : res net) (Y : res fnc) g' : simr via X Y -> Y = Ok g' -> X = Ok (instead g' b d f z0) /\ wrs br dev P g0 g'.
Proof. intros S ->. destruct X as [z|e]; [|destruct S]. destruct S as [-> W]. split; [reflexivity|exact W]. Qed.
End Via.
