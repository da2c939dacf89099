(** Driver functions: trees and histories. *)
From Coq Require Import Lia.
From Verif Require Import Base BaseProofs Bits ModelUtils ModelTlp ModelTags ModelAttrs ModelCaps ModelCapList ModelConfig ModelFunction ModelHost
  ModelPci ModelPciCaps ModelDriver SpecRegs SpecConfig SpecHost SpecPciCaps SpecDriver ProofsHost ProofsDriver.

Section Tree.
Context (nd : nat -> node) (ND : forall k, node_ok (nd k)) (above : nat -> list nat) (TR : tree_ok above).
Local Notation cr := (tree_read nd).
Local Notation cw := (tree_write nd).
Local Notation st := (drv (nat -> fnc)).
Definition com (d : st) (k : nat) : Z := command nd (v_sys d) k.
(** Registers other than 1 are kept. *)
Definition kept1 (k : nat) (f f' : fnc) : Prop := forall ms, In (n_rd (nd k), n_wr (nd k), ms) cfg_kinds -> others_kept (n_rd (nd k)) ms 1 f f'.
(** What differs at one node: nothing but command, which is [c], and the bookkeeping. *)
Record moved (k : nat) (d d' : st) (n : Z) (b : bool) (c : Z) : Prop := mkMoved {
  m_cnt : v_cnt d' k = n; m_bm : v_bm d' k = b; m_com : com d' k = c; m_kept : kept1 k (v_sys d k) (v_sys d' k) }.
Definition same (k : nat) (d d' : st) : Prop := v_cnt d' k = v_cnt d k /\ v_bm d' k = v_bm d k /\ v_sys d' k = v_sys d k.
Lemma same_refl k d : same k d d.
Proof. repeat split. Qed.
Lemma same_trans k d e g : same k d e -> same k e g -> same k d g.
Proof. intros (A1 & A2 & A3) (B1 & B2 & B3). repeat split; congruence. Qed.
Lemma same_moved k d d' : same k d d' -> moved k d d' (v_cnt d k) (v_bm d k) (com d k).
Proof.
  intros (A & B & C). constructor; try assumption; [unfold com, command; rewrite C; reflexivity|]. rewrite C. intros ms W. apply kept_refl.
Qed.
Lemma kept1_trans k f g h : kept1 k f g -> kept1 k g h -> kept1 k f h.
Proof. intros A B ms W. exact (kept_trans _ _ _ _ _ _ (A ms W) (B ms W)). Qed.

(** An access of node [k] is one of its function. *)
Lemma tree_resources k F f' : enable_resources (config_read (cfg_deliver (n_rd (nd k)) (n_wr (nd k)) (n_tg (nd k))) (n_crs (nd k)) (n_id (nd k)))
    (config_write (cfg_deliver (n_rd (nd k)) (n_wr (nd k)) (n_tg (nd k))) (n_id (nd k))) (F k) = Ok f' ->
  exists F', enable_resources (cr k) (cw k) F = Ok F' /\ F' k = f' /\ forall j, j <> k -> F' j = F j.
Proof.
  unfold enable_resources, cfg_read_word, cfg_write_word, tree_read, tree_write. destruct (config_read _ _ _ _ _ (F k)) as [[g d]|]; [|discriminate]. cbn [bind].
  destruct (negb _).
  - destruct (to_bytes _ _) as [bs|]; [|discriminate]. cbn [bind]. unfold nset at 1. rewrite Nat.eqb_refl.
    destruct (config_write _ _ _ _ g) as [g'|]; [|discriminate]. cbn [bind]. intros E. injection E as <-. eexists. split; [reflexivity|]. unfold nset. rewrite Nat.eqb_refl.
    split; [reflexivity|]. intros j Hj. apply Nat.eqb_neq in Hj. rewrite !Hj. reflexivity.
  - intros E. injection E as <-. eexists. split; [reflexivity|]. unfold nset. rewrite Nat.eqb_refl.
    split; [reflexivity|]. intros j Hj. apply Nat.eqb_neq in Hj. rewrite !Hj. reflexivity.
Qed.
Lemma tree_master en k F f' : write_master (config_read (cfg_deliver (n_rd (nd k)) (n_wr (nd k)) (n_tg (nd k))) (n_crs (nd k)) (n_id (nd k)))
    (config_write (cfg_deliver (n_rd (nd k)) (n_wr (nd k)) (n_tg (nd k))) (n_id (nd k))) en (F k) = Ok f' ->
  exists F', write_master (cr k) (cw k) en F = Ok F' /\ F' k = f' /\ forall j, j <> k -> F' j = F j.
Proof.
  unfold write_master, cfg_read_word, cfg_write_word, tree_read, tree_write. destruct (config_read _ _ _ _ _ (F k)) as [[g d]|]; [|discriminate]. cbn [bind].
  destruct (negb _).
  - destruct (to_bytes _ _) as [bs|]; [|discriminate]. cbn [bind]. unfold nset at 1. rewrite Nat.eqb_refl.
    destruct (config_write _ _ _ _ g) as [g'|]; [|discriminate]. cbn [bind]. intros E. injection E as <-. eexists. split; [reflexivity|]. unfold nset. rewrite Nat.eqb_refl.
    split; [reflexivity|]. intros j Hj. apply Nat.eqb_neq in Hj. rewrite !Hj. reflexivity.
  - intros E. injection E as <-. eexists. split; [reflexivity|]. unfold nset. rewrite Nat.eqb_refl.
    split; [reflexivity|]. intros j Hj. apply Nat.eqb_neq in Hj. rewrite !Hj. reflexivity.
Qed.
Lemma placed_upd F F' k : placed_ok nd F -> f_id (F' k) = n_id (nd k) -> (forall j, j <> k -> F' j = F j) -> placed_ok nd F'.
Proof.
  intros P E N j. destruct (Nat.eq_dec j k) as [->|H]; [rewrite E; split; reflexivity|rewrite N by exact H; apply P].
Qed.
(** [set_master] *)
Lemma set_master_ok en k (d : st) : placed_ok nd (v_sys d) ->
  exists d', set_master cr cw en k d = Ok d' /\ placed_ok nd (v_sys d') /\ moved k d d' (v_cnt d k) en (put_bit 2 en (com d k)) /\ forall j, j <> k -> same j d d'.
Proof.
  intros P. destruct (ND k) as [ms W].
  destruct (master_ok (n_rd (nd k)) (n_wr (nd k)) ms (n_tg (nd k)) (n_crs (nd k)) (n_id (nd k)) W en (v_sys d k) (P k)) as (f' & E & ID & V & _).
  assert (K : kept1 k (v_sys d k) f').
  { intros ms' W'. destruct (master_ok (n_rd (nd k)) (n_wr (nd k)) ms' (n_tg (nd k)) (n_crs (nd k)) (n_id (nd k)) W' en (v_sys d k) (P k)) as (f2 & E2 & _ & _ & K).
    rewrite E in E2. injection E2 as <-. exact K. }
  destruct (tree_master en k (v_sys d) f' E) as (F' & E' & K' & N). unfold set_master. rewrite E'. cbn [bind]. eexists. split; [reflexivity|]. cbn [v_sys].
  split; [apply (placed_upd (v_sys d) F' k P); [rewrite K'; exact ID|exact N]|]. split.
  - constructor; cbn [v_cnt v_bm v_sys]; [reflexivity|unfold nset; rewrite Nat.eqb_refl; reflexivity| |rewrite K'; exact K].
    unfold com, command. cbn [v_sys]. rewrite K'. exact V.
  - intros j Hj. split; [reflexivity|]. cbn [v_bm v_sys]. split; [|apply N; exact Hj]. unfold nset. apply Nat.eqb_neq in Hj. rewrite Hj. reflexivity.
Qed.
Lemma resources_step k (d : st) : placed_ok nd (v_sys d) ->
  exists F', enable_resources (cr k) (cw k) (v_sys d) = Ok F' /\ placed_ok nd F' /\
    moved k d (put_sys F' d) (v_cnt d k) (v_bm d k) (Z.lor (com d k) 3) /\ forall j, j <> k -> same j d (put_sys F' d).
Proof.
  intros P. destruct (ND k) as [ms W].
  destruct (resources_ok (n_rd (nd k)) (n_wr (nd k)) ms (n_tg (nd k)) (n_crs (nd k)) (n_id (nd k)) W (v_sys d k) (P k)) as (f' & E & ID & V & _).
  assert (K : kept1 k (v_sys d k) f').
  { intros ms' W'. destruct (resources_ok (n_rd (nd k)) (n_wr (nd k)) ms' (n_tg (nd k)) (n_crs (nd k)) (n_id (nd k)) W' (v_sys d k) (P k)) as (f2 & E2 & _ & _ & K).
    rewrite E in E2. injection E2 as <-. exact K. }
  destruct (tree_resources k (v_sys d) f' E) as (F' & E' & K' & N). exists F'. split; [exact E'|].
  split; [apply (placed_upd (v_sys d) F' k P); [rewrite K'; exact ID|exact N]|]. split.
  - constructor; cbn [v_cnt v_bm v_sys put_sys]; [reflexivity|reflexivity| |rewrite K'; exact K].
    unfold com, command. cbn [v_sys put_sys]. rewrite K'. exact V.
  - intros j Hj. split; [reflexivity|]. cbn [v_bm v_sys put_sys]. split; [reflexivity|apply N; exact Hj].
Qed.

(** ** What [enable_bridge] does along a path *)
Definition raised (path : list nat) (j : nat) (d d' : st) : Prop :=
  (~ In j path \/ 0 < v_cnt d j -> same j d d') /\
  (In j path -> v_cnt d j <= 0 -> v_cnt d j < v_cnt d' j /\ moved j d d' (v_cnt d' j) true (Z.lor (com d j) 7)).
Lemma raised_again path j d e g : raised path j d e -> raised path j e g -> raised path j d g.
Proof.
  intros [A1 A2] [B1 B2]. split.
  - intros H. pose proof (A1 H) as S1. apply (same_trans _ _ _ _ S1). apply B1. destruct S1 as (-> & _). exact H.
  - intros H L. destruct (A2 H L) as [L1 M1]. destruct (Z.lt_ge_cases 0 (v_cnt e j)) as [G|G].
    + destruct (B1 (or_intror G)) as (S1 & S2 & S3). split; [lia|]. destruct M1. constructor; [reflexivity|congruence| |].
      * unfold com, command in *. rewrite S3. assumption.
      * rewrite S3. assumption.
    + destruct (B2 H G) as [L2 M2]. split; [lia|]. destruct M1 as [_ _ C1 K1], M2 as [_ B3 C2 K2]. constructor; [reflexivity|exact B3| |exact (kept1_trans _ _ _ _ K1 K2)].
      rewrite C2, C1, <- Z.lor_assoc. reflexivity.
Qed.
Lemma raised_from path j d e g : same j d e -> raised path j e g -> raised path j d g.
Proof.
  intros (S1 & S2 & S3) [B1 B2]. unfold raised. rewrite S1 in *. split.
  - intros H. destruct (B1 H) as (X1 & X2 & X3). repeat split; congruence.
  - intros H L. destruct (B2 H L) as [L1 [M1 M2 M3 M4]]. split; [exact L1|]. constructor; [exact M1|exact M2| |].
    + rewrite M3. unfold com, command. rewrite S3. reflexivity.
    + rewrite <- S3. exact M4.
Qed.
Lemma raised_to path j d e g : raised path j d e -> same j e g -> raised path j d g.
Proof.
  intros [A1 A2] (S1 & S2 & S3). unfold raised. rewrite S1 in *. split.
  - intros H. destruct (A1 H) as (X1 & X2 & X3). repeat split; congruence.
  - intros H L. destruct (A2 H L) as [L1 [M1 M2 M3 M4]]. split; [exact L1|]. constructor; [congruence|congruence| |].
    + rewrite <- M3. unfold com, command. rewrite S3. reflexivity.
    + rewrite S3. exact M4.
Qed.
Lemma raised_wider k path j d d' : raised path j d d' -> j <> k \/ (~ In k path /\ 0 < v_cnt d k) -> raised (k :: path) j d d'.
Proof.
  intros [A1 A2] C. split.
  - intros [H|H]; apply A1; [left; intros I0; apply H; right; exact I0|right; exact H].
  - intros [E|H] L; [|exact (A2 H L)]. subst j. destruct C as [C|[_ C]]; [congruence|lia].
Qed.
Lemma put_lor v : Z.lor (Z.lor v 3) 4 = Z.lor v 7.
Proof. rewrite <- Z.lor_assoc. reflexivity. Qed.
Lemma enable_bridge_ok : forall path (d : st), NoDup path -> placed_ok nd (v_sys d) ->
  exists d', enable_bridge cr cw path d = Ok d' /\ placed_ok nd (v_sys d') /\ forall j, raised path j d d'.
Proof.
  induction path as [|k path IH]; intros d U P.
  { exists d. split; [reflexivity|]. split; [exact P|]. intros j. split; [intros _; apply same_refl|intros []]. }
  inversion U as [|? ? N U']; subst. cbn [enable_bridge]. destruct (IH d U' P) as (d1 & -> & P1 & R1). cbn [bind].
  assert (S1 : same k d d1) by (apply R1; left; exact N). unfold is_enabled. pose proof S1 as (C1 & B1 & F1). rewrite C1. destruct (v_cnt d k >? 0) eqn:Q.
  { exists d1. split; [reflexivity|]. split; [exact P1|]. intros j. apply raised_wider; [apply R1|]. destruct (Nat.eq_dec j k); [right; split; [exact N|lia]|left; assumption]. }
  unfold enable_device. set (d2 := put_cnt k (v_cnt d1 k + 1) d1). assert (C2 : v_cnt d2 k = v_cnt d k + 1) by (unfold d2, put_cnt, nset; cbn; rewrite Nat.eqb_refl; lia).
  cbv zeta. rewrite C2. replace (v_cnt d k + 1 >? 1) with false by lia.
  destruct (IH d2 U' P1) as (d3 & -> & P3 & R3). cbn [bind].
  destruct (resources_step k d3 P3) as (F4 & -> & P4 & M4 & N4). cbn [bind]. set (d4 := put_sys F4 d3) in *.
  destruct (set_master_ok true k d4 P4) as (d5 & -> & P5 & M5 & N5). exists d5. split; [reflexivity|]. split; [exact P5|].
  assert (S3 : same k d2 d3) by (apply R3; left; exact N).
  assert (T2 : forall j, j <> k -> same j d1 d2) by (intros j Hj; unfold d2, put_cnt, same, nset; cbn; apply Nat.eqb_neq in Hj; rewrite Hj; repeat split).
  intros j. destruct (Nat.eq_dec j k) as [->|Hj].
  - split; [intros [H|H]; [exfalso; apply H; left; reflexivity|lia]|]. intros _ L. destruct S3 as (S31 & S32 & S33). destruct M4 as [Q1 Q2 Q3 Q4], M5 as [Q5 Q6 Q7 Q8].
    split; [rewrite Q5, Q1, S31, C2; lia|]. constructor; [reflexivity|exact Q6| |].
    + rewrite Q7, Q3. unfold put_bit. change (2 ^ 2) with 4. rewrite put_lor. f_equal. unfold com, command. rewrite S33. unfold d2, put_cnt. cbn [v_sys]. rewrite F1. reflexivity.
    + assert (FE : v_sys d3 k = v_sys d k) by (rewrite S33; unfold d2, put_cnt; cbn [v_sys]; exact F1). rewrite FE in Q4. exact (kept1_trans _ _ _ _ Q4 Q8).
  - apply raised_wider; [|left; exact Hj]. apply (raised_again path j d d1 d5 (R1 j)). apply (raised_from path j d1 d2 d5 (T2 j Hj)).
    exact (raised_to path j d2 d3 d5 (R3 j) (same_trans _ _ _ _ (N4 j Hj) (N5 j Hj))).
Qed.

(** ** The tree *)
Lemma above_shorter : forall l k j, above k = l -> In j l -> (length (above j) < length l)%nat /\ incl (above j) l.
Proof.
  induction l as [|p l IH]; intros k j E H; [destruct H|]. pose proof (TR k p l E) as T. destruct H as [<-|H].
  - rewrite T. split; [cbn; lia|intros x X; right; exact X].
  - destruct (IH p j T H) as [L S1]. split; [cbn; lia|intros x X; right; apply S1; exact X].
Qed.
Lemma above_fresh k : ~ In k (above k).
Proof. intros H. destruct (above_shorter _ k k eq_refl H) as [L _]. lia. Qed.
Lemma above_nodup : forall l k, above k = l -> NoDup l.
Proof.
  induction l as [|p l IH]; intros k E; [constructor|]. pose proof (TR k p l E) as T. constructor; [|exact (IH p T)]. rewrite <- T. apply above_fresh.
Qed.
Lemma above_trans k j m : In j (above k) -> In m (above j) -> In m (above k).
Proof. intros H M. exact (proj2 (above_shorter _ k j eq_refl H) m M). Qed.

(** ** One call *)
Definition effect (o : dop) (j : nat) (d d' : st) : Prop :=
  match o with
  | Enable k =>
    if Nat.eqb j k then moved k d d' (v_cnt d k + 1) (v_bm d k) (if 0 <? v_cnt d k then com d k else Z.lor (com d k) 3)
    else if 0 <? v_cnt d k then same j d d' else raised (above k) j d d'
  | Disable k =>
    if Nat.eqb j k then moved k d d' (v_cnt d k - 1) (if 1 <? v_cnt d k then v_bm d k else false) (if 1 <? v_cnt d k then com d k else put_bit 2 false (com d k))
    else same j d d'
  | Master b k => if Nat.eqb j k then moved k d d' (v_cnt d k) b (put_bit 2 b (com d k)) else same j d d'
  | Config _ _ _ => v_cnt d' j = v_cnt d j /\ v_bm d' j = v_bm d j /\ com d' j = com d j
  end.
Lemma put_cnt_same k n (d : st) j : j <> k -> same j d (put_cnt k n d).
Proof. intros H. apply Nat.eqb_neq in H. unfold same, put_cnt, nset. cbn. rewrite H. repeat split. Qed.
Lemma put_cnt_own k n (d : st) : v_cnt (put_cnt k n d) k = n.
Proof. unfold put_cnt, nset. cbn. rewrite Nat.eqb_refl. reflexivity. Qed.
Lemma kept1_refl k f : kept1 k f f.
Proof. intros ms W. apply kept_refl. Qed.
Lemma step_ok o (d : st) : op_ok o -> placed_ok nd (v_sys d) ->
  exists d', dstep cr cw above d o = Ok d' /\ placed_ok nd (v_sys d') /\ forall j, effect o j d d'.
Proof.
  intros OK P. destruct o as [k|k|b k|k addr data]; cbn [dstep effect].
  - unfold enable_device. set (d1 := put_cnt k (v_cnt d k + 1) d). cbv zeta. unfold d1 at 1. rewrite put_cnt_own.
    destruct (Z.ltb_spec 0 (v_cnt d k)) as [C|C].
    + replace (v_cnt d k + 1 >? 1) with true by lia. exists d1. split; [reflexivity|]. split; [exact P|]. intros j. destruct (Nat.eqb_spec j k) as [->|H].
      * constructor; [apply put_cnt_own|reflexivity|reflexivity|apply kept1_refl].
      * apply put_cnt_same. exact H.
    + replace (v_cnt d k + 1 >? 1) with false by lia. destruct (enable_bridge_ok (above k) d1 (above_nodup _ k eq_refl) P) as (d2 & -> & P2 & R2). cbn [bind].
      destruct (resources_step k d2 P2) as (F3 & -> & P3 & M3 & N3). cbn [bind]. eexists. split; [reflexivity|]. split; [exact P3|].
      intros j. destruct (Nat.eqb_spec j k) as [->|H].
      * destruct (proj1 (R2 k) (or_introl (above_fresh k))) as (S1 & S2 & S3). destruct M3 as [M1 M2 M4 M5]. constructor.
        -- rewrite M1, S1. apply put_cnt_own.
        -- rewrite M2, S2. reflexivity.
        -- rewrite M4. unfold com, command. rewrite S3. reflexivity.
        -- rewrite S3 in M5. exact M5.
      * apply (raised_from _ _ _ d1); [apply put_cnt_same; exact H|]. apply (raised_to _ _ _ d2); [apply R2|apply N3; exact H].
  - unfold disable_device. set (d1 := put_cnt k (v_cnt d k - 1) d). cbv zeta. unfold d1 at 1. rewrite put_cnt_own.
    destruct (Z.ltb_spec 1 (v_cnt d k)) as [C|C].
    + replace (v_cnt d k - 1 >? 0) with true by lia. exists d1. split; [reflexivity|]. split; [exact P|]. intros j. destruct (Nat.eqb_spec j k) as [->|H].
      * constructor; [apply put_cnt_own|reflexivity|reflexivity|apply kept1_refl].
      * apply put_cnt_same. exact H.
    + replace (v_cnt d k - 1 >? 0) with false by lia. destruct (set_master_ok false k d1 P) as (d2 & -> & P2 & M2 & N2). eexists. split; [reflexivity|]. split; [exact P2|].
      intros j. destruct (Nat.eqb_spec j k) as [->|H].
      * destruct M2 as [M1 M2 M3 M4]. constructor; [rewrite M1; apply put_cnt_own|exact M2|exact M3|exact M4].
      * apply (same_trans _ _ d1); [apply put_cnt_same; exact H|apply N2; exact H].
  - destruct (set_master_ok b k d P) as (d2 & -> & P2 & M2 & N2). eexists. split; [reflexivity|]. split; [exact P2|].
    intros j. destruct (Nat.eqb_spec j k) as [->|H]; [exact M2|apply N2; exact H].
  - destruct OK as [BD AO]. destruct (ND k) as [ms W].
    destruct (other_ok (n_rd (nd k)) (n_wr (nd k)) ms (n_tg (nd k)) (n_id (nd k)) W (v_sys d k) addr data (P k) BD AO) as (f' & E & A & V).
    unfold tree_write. rewrite E. cbn [bind]. eexists. split; [reflexivity|]. unfold put_sys. cbn [v_sys v_cnt v_bm]. split.
    + intros j. unfold nset. destruct (Nat.eqb_spec j k) as [->|H]; [exact A|apply P].
    + intros j. split; [reflexivity|]. split; [reflexivity|]. unfold com, command. cbn [v_sys]. unfold nset. destruct (Nat.eqb_spec j k) as [->|H]; [exact V|reflexivity].
Qed.
(** Bits 0 and 1 are never cleared, bits from 3 on never change. *)
Lemma effect_bits o j d d' i : effect o j d d' -> 0 <= i ->
  (i < 2 -> Z.testbit (com d j) i = true -> Z.testbit (com d' j) i = true) /\ (3 <= i -> Z.testbit (com d' j) i = Z.testbit (com d j) i).
Proof.
  intros E Hi.
  assert (L3 : forall v, Z.testbit (Z.lor v 3) i = Z.testbit v i || (i <? 2)) by (intros v; rewrite Z.lor_spec; f_equal; change 3 with (Z.ones 2); destruct (Z.ltb_spec i 2); [apply Z.ones_spec_low; lia|apply Z.ones_spec_high; lia]).
  assert (L7 : forall v, Z.testbit (Z.lor v 7) i = Z.testbit v i || (i <? 3)) by (intros v; rewrite Z.lor_spec; f_equal; change 7 with (Z.ones 3); destruct (Z.ltb_spec i 3); [apply Z.ones_spec_low; lia|apply Z.ones_spec_high; lia]).
  assert (SM : same j d d' -> com d' j = com d j) by (intros (_ & _ & S3); unfold com, command; rewrite S3; reflexivity).
  assert (G : forall v, com d' j = v -> (v = com d j \/ v = Z.lor (com d j) 3 \/ v = Z.lor (com d j) 7 \/ exists b, v = put_bit 2 b (com d j)) ->
    (i < 2 -> Z.testbit (com d j) i = true -> Z.testbit (com d' j) i = true) /\ (3 <= i -> Z.testbit (com d' j) i = Z.testbit (com d j) i)).
  { intros v -> [->|[->|[->|[b ->]]]]; rewrite ?L3, ?L7; try (rewrite put_bit_spec by lia); split; intros H; try (intros ->); try reflexivity.
    - replace (i <? 2) with false by lia. apply orb_false_r.
    - replace (i <? 3) with false by lia. apply orb_false_r.
    - replace (i =? 2) with false by lia. reflexivity.
    - replace (i =? 2) with false by lia. reflexivity. }
  destruct o as [k|k|b k|k addr data]; cbn [effect] in E.
  - destruct (Nat.eqb_spec j k) as [->|H].
    + destruct E as [_ _ C _]. apply (G _ C). destruct (0 <? v_cnt d k); auto.
    + destruct (0 <? v_cnt d k); [apply (G _ (SM E)); auto|]. destruct E as [E1 E2]. destruct (in_dec Nat.eq_dec j (above k)) as [I0|I0].
      * destruct (Z.lt_ge_cases 0 (v_cnt d j)) as [L|L]; [apply (G _ (SM (E1 (or_intror L)))); auto|]. destruct (E2 I0 L) as [_ [_ _ C _]]. apply (G _ C). auto.
      * apply (G _ (SM (E1 (or_introl I0)))). auto.
  - destruct (Nat.eqb_spec j k) as [->|H]; [|apply (G _ (SM E)); auto]. destruct E as [_ _ C _]. apply (G _ C). destruct (1 <? v_cnt d k); eauto.
  - destruct (Nat.eqb_spec j k) as [->|H]; [|apply (G _ (SM E)); auto]. destruct E as [_ _ C _]. apply (G _ C). eauto.
  - destruct E as (_ & _ & C). apply (G _ C). auto.
Qed.
Lemma effect_kept o j d d' : effect o j d d' -> is_config o = false -> kept1 j (v_sys d j) (v_sys d' j).
Proof.
  assert (SM : same j d d' -> kept1 j (v_sys d j) (v_sys d' j)) by (intros (_ & _ & ->); apply kept1_refl).
  intros E NC. destruct o as [k|k|b k|k addr data]; cbn [effect] in E; try discriminate NC.
  - destruct (Nat.eqb_spec j k) as [->|H]; [apply E|]. destruct (0 <? v_cnt d k); [exact (SM E)|]. destruct E as [E1 E2].
    destruct (in_dec Nat.eq_dec j (above k)) as [I0|I0]; [|exact (SM (E1 (or_introl I0)))].
    destruct (Z.lt_ge_cases 0 (v_cnt d j)) as [L|L]; [exact (SM (E1 (or_intror L)))|]. exact (m_kept _ _ _ _ _ _ (proj2 (E2 I0 L))).
  - destruct (Nat.eqb_spec j k) as [->|H]; [apply E|exact (SM E)].
  - destruct (Nat.eqb_spec j k) as [->|H]; [apply E|exact (SM E)].
Qed.

(** ** Histories *)
Lemma runs : forall ops (d : st), Forall op_ok ops -> placed_ok nd (v_sys d) -> exists d', drun cr cw above ops d = Ok d' /\ placed_ok nd (v_sys d').
Proof.
  induction ops as [|o ops IH]; intros d F P; [exists d; split; [reflexivity|exact P]|]. inversion F as [|? ? F1 F2]; subst.
  destruct (step_ok o d F1 P) as (d1 & E & P1 & _). cbn [drun]. rewrite E. cbn [bind]. exact (IH d1 F2 P1).
Qed.
(** Induction over histories: an invariant that every call keeps. *)
Lemma run_inv (Q : list dop -> st -> Prop) d0 : placed_ok nd (v_sys d0) -> Q [] d0 ->
  (forall ops o d d', Q ops d -> placed_ok nd (v_sys d) -> op_ok o -> (forall j, effect o j d d') -> Q (ops ++ [o]) d') ->
  forall ops d, Forall op_ok ops -> drun cr cw above ops d0 = Ok d -> Q ops d.
Proof.
  intros P0 Q0 ST ops d. enough (G : forall rest past e, placed_ok nd (v_sys e) -> Q past e -> Forall op_ok rest -> drun cr cw above rest e = Ok d -> Q (past ++ rest) d).
  { intros F E. exact (G ops [] d0 P0 Q0 F E). }
  clear ops P0 Q0 d0. induction rest as [|o rest IH]; intros past e P Q1 F E.
  - cbn in E. injection E as <-. rewrite app_nil_r. exact Q1.
  - inversion F as [|? ? F1 F2]; subst. destruct (step_ok o e F1 P) as (e1 & E1 & P1 & EF). cbn [drun] in E. rewrite E1 in E. cbn [bind] in E.
    replace (past ++ o :: rest) with ((past ++ [o]) ++ rest) by (rewrite <- app_assoc; reflexivity). apply (IH (past ++ [o]) e1 P1); try assumption.
    exact (ST past o e e1 Q1 P F1 EF).
Qed.
End Tree.
