(** Driver functions: device control, CRS, SERR; histories. *)
From Coq Require Import Lia.
From Verif Require Import Base BaseProofs Bits ModelUtils ModelTlp ModelTags ModelAttrs ModelCaps ModelCapList ModelConfig ModelFunction ModelHost
  ModelPci ModelPciCaps ModelDriver SpecRegs SpecConfig SpecCaps SpecHost SpecCapList SpecCapFn SpecPciCaps SpecDriver
  ProofsConfigTop ProofsCapsLayout ProofsHost ProofsBar ProofsCapWalk ProofsPciCaps ProofsDriver.

Lemma glue_low a b n i : 0 <= n -> 0 <= a < 2 ^ n -> 0 <= i < n -> Z.testbit (a + b * 2 ^ n) i = Z.testbit a i.
Proof. intros N A H. rewrite <- (Z.mod_pow2_bits_low (_ + _) n i) by lia. rewrite Z.mod_add by lia. rewrite Z.mod_small by lia. reflexivity. Qed.
Lemma glue_high a b n i : 0 <= n -> 0 <= a < 2 ^ n -> n <= i -> Z.testbit (a + b * 2 ^ n) i = Z.testbit b (i - n).
Proof.
  intros N A H. replace i with ((i - n) + n) at 1 by lia. rewrite <- Z.div_pow2_bits by lia. rewrite Z.div_add by lia. rewrite Z.div_small by lia. reflexivity.
Qed.
Lemma field_bit b w x v i : 0 <= b -> 0 <= w -> 0 <= x < 2 ^ w -> 0 <= v -> 0 <= i ->
  Z.testbit (with_field b w x v) i = if (b <=? i) && (i <? b + w) then Z.testbit x (i - b) else Z.testbit v i.
Proof.
  intros B Wd X V Hi. unfold with_field. assert (PB : 0 < 2 ^ b) by (apply Z.pow_pos_nonneg; lia).
  assert (PW : 2 ^ (b + w) = 2 ^ b * 2 ^ w) by (apply Z.pow_add_r; lia).
  assert (M : 0 <= v mod 2 ^ b < 2 ^ b) by (apply Z.mod_pos_bound; lia).
  assert (L : 0 <= v mod 2 ^ b + x * 2 ^ b < 2 ^ (b + w)) by (rewrite PW; nia).
  replace (v - v mod 2 ^ (b + w) + v mod 2 ^ b + x * 2 ^ b) with ((v mod 2 ^ b + x * 2 ^ b) + (v / 2 ^ (b + w)) * 2 ^ (b + w))
    by (pose proof (Z.div_mod v (2 ^ (b + w)) ltac:(lia)); lia).
  destruct (Z.lt_ge_cases i (b + w)) as [C|C].
  - rewrite glue_low by lia. replace (i <? b + w) with true by lia. rewrite andb_true_r. destruct (Z.leb_spec b i) as [D|D].
    + rewrite glue_high by lia. reflexivity.
    + rewrite glue_low by lia. apply Z.mod_pow2_bits_low. lia.
  - rewrite glue_high by lia. replace (i <? b + w) with false by lia. rewrite andb_false_r. rewrite Z.div_pow2_bits by lia. f_equal. lia.
Qed.
Lemma field_range b w x v n : 0 <= b -> 0 <= w -> b + w <= n -> 0 <= x < 2 ^ w -> 0 <= v < 2 ^ n -> 0 <= with_field b w x v < 2 ^ n.
Proof.
  intros B Wd N X V. apply bits_range; [lia|]. intros j H. rewrite field_bit by lia. replace ((b <=? j) && (j <? b + w)) with false by lia. apply (testbit_high v n); lia.
Qed.
Lemma field_same b w x v : 0 <= b -> 0 <= w -> 0 <= x < 2 ^ w -> 0 <= v -> (with_field b w x v = v <-> (v / 2 ^ b) mod 2 ^ w = x).
Proof.
  intros B Wd X V. assert (PB : 0 < 2 ^ b) by (apply Z.pow_pos_nonneg; lia). assert (PW0 : 0 < 2 ^ w) by (apply Z.pow_pos_nonneg; lia).
  assert (PW : 2 ^ (b + w) = 2 ^ b * 2 ^ w) by (apply Z.pow_add_r; lia). unfold with_field.
  assert (v mod 2 ^ (b + w) = v mod 2 ^ b + 2 ^ b * ((v / 2 ^ b) mod 2 ^ w)) as -> by (rewrite PW; apply Z.rem_mul_r; lia). nia.
Qed.
Lemma field_land b w x v (m : Z) : 0 <= b -> 0 <= w -> 0 <= x < 2 ^ w -> 0 <= v -> m = Z.ones w * 2 ^ b ->
  Z.lor (Z.land v (Z.lnot m)) (Z.shiftl x b) = with_field b w x v.
Proof.
  intros B Wd X V ->. apply Z.bits_inj'. intros i Hi. rewrite field_bit by lia. rewrite Z.lor_spec, Z.land_spec, Z.lnot_spec, Z.shiftl_spec by lia.
  assert (Z.testbit (Z.ones w * 2 ^ b) i = (b <=? i) && (i <? b + w)) as ->.
  { rewrite Z.mul_pow2_bits by lia. destruct (Z.leb_spec b i) as [L|L]; cbn [andb]; [|apply Z.testbit_neg_r; lia].
    destruct (Z.ltb_spec i (b + w)); [apply Z.ones_spec_low; lia|apply Z.ones_spec_high; lia]. }
  destruct (Z.leb_spec b i) as [L|L]; cbn [andb negb].
  - destruct (Z.ltb_spec i (b + w)) as [C|C]; cbn [negb]; rewrite ?andb_false_r, ?andb_true_r; [reflexivity|]. rewrite (testbit_high x w) by lia. apply orb_false_r.
  - rewrite (Z.testbit_neg_r x) by lia. rewrite andb_true_r. apply orb_false_r.
Qed.

Lemma field_dc b w x v : 0 <= b -> 0 <= w -> b + w <= 15 -> 0 <= x < 2 ^ w -> 0 <= v < 2 ^ 32 ->
  with_field b w x v mod 65536 = with_field b w x (v mod 65536).
Proof.
  intros B Wd N X V. change 65536 with (2 ^ 16). apply Z.bits_inj'. intros j Hj. rewrite field_bit by (try lia; apply Z.mod_pos_bound; lia).
  destruct (Z.lt_ge_cases j 16) as [H|H].
  - rewrite !Z.mod_pow2_bits_low by lia. apply field_bit; lia.
  - rewrite !Z.mod_pow2_bits_high by lia. replace ((b <=? j) && (j <? b + w)) with false by lia. reflexivity.
Qed.
Lemma one_bit v b : 0 <= v -> 0 <= b -> Z.lor v (Z.shiftl 1 b) = with_field b 1 1 v.
Proof.
  intros V B. rewrite <- (field_land b 1 1 v (2 ^ b)) by (try lia; reflexivity || (change (Z.ones 1) with 1; lia)). rewrite Z.shiftl_1_l.
  apply Z.bits_inj'. intros j Hj. rewrite !Z.lor_spec, Z.land_spec, Z.lnot_spec, Z.pow2_bits_eqb by lia. destruct (b =? j), (Z.testbit v j); reflexivity.
Qed.
Lemma bit_tested v b : 0 <= v -> 0 <= b -> zbool (Z.land v (Z.shiftl 1 b)) = Z.testbit v b /\ (v / 2 ^ b) mod 2 = Z.b2z (Z.testbit v b).
Proof.
  intros V B. split.
  - rewrite Z.shiftl_1_l. assert (Z.land v (2 ^ b) = if Z.testbit v b then 2 ^ b else 0) as ->.
    { apply Z.bits_inj'. intros j Hj. rewrite Z.land_spec, Z.pow2_bits_eqb by lia. destruct (Z.eqb_spec b j) as [<-|N].
      - destruct (Z.testbit v b); [rewrite Z.pow2_bits_true by lia; reflexivity|rewrite Z.bits_0; reflexivity].
      - rewrite andb_false_r. destruct (Z.testbit v b); [rewrite Z.pow2_bits_false by lia; reflexivity|rewrite Z.bits_0; reflexivity]. }
    destruct (Z.testbit v b); unfold zbool; [|reflexivity]. assert (0 < 2 ^ b) by (apply Z.pow_pos_nonneg; lia). destruct (2 ^ b); [lia|reflexivity|lia].
  - rewrite <- Z.testbit_spec' by lia. destruct (Z.testbit v b); reflexivity.
Qed.
Lemma status_range b s : 0 <= s < 65536 -> 0 <= status_after b s < 65536.
Proof.
  intros H. unfold status_after. destruct b; [|exact H]. change 65536 with (2 ^ 16). apply bits_range; [lia|]. intros j Hj.
  rewrite Z.ldiff_spec. rewrite (testbit_high s 16) by lia. reflexivity.
Qed.
(** Accesses to a capability are accesses to the registers at its offset. *)
Section Offset.
Context {T : Type} (cr : Z -> Z -> T -> res (T * list Z)) (cw : Z -> list Z -> T -> res T) (p : ModelPciCaps.found) (k : cap_key) (o : Z) (E : cap_offset k p = Ok o).
Lemma cap_rd4 a s : cap_read_dword cr p k a s = cfg_read_dword cr (a + o) s.
Proof. unfold cap_read_dword, capability_read, cfg_read_dword. rewrite E. reflexivity. Qed.
Lemma cap_rd2 a s : cap_read_word cr p k a s = cfg_read_word cr (a + o) s.
Proof. unfold cap_read_word, capability_read, cfg_read_word. rewrite E. reflexivity. Qed.
Lemma cap_wr4 a v s : 0 <= v < 2 ^ 32 -> cap_write_dword cw p k a v s = cw (a + o) (le_bytes 4 v) s.
Proof.
  intros V. unfold cap_write_dword, capability_write, to_bytes. rewrite E. replace ((0 <=? v) && (v <? 256 ^ Z.of_nat 4)) with true by (change (256 ^ Z.of_nat 4) with (2 ^ 32); lia).
  reflexivity.
Qed.
Lemma cap_wr2 a v s : 0 <= v < 2 ^ 16 -> cap_write_word cw p k a v s = cw (a + o) (le_bytes 2 v) s.
Proof.
  intros V. unfold cap_write_word, capability_write, to_bytes. rewrite E. replace ((0 <=? v) && (v <? 256 ^ Z.of_nat 2)) with true by (change (256 ^ Z.of_nat 2) with (2 ^ 16); lia).
  reflexivity.
Qed.
End Offset.
Section Access.
Context (rd : fnc -> Z -> res (option Z)) (wr : Z -> Z -> Z -> fnc -> fnc) (ms : fnc -> Z -> option (Z * Z * Z)) (tg : Z -> Z)
  (crs : option bool) (dev : pcie_id) (W : In (rd, wr, ms) cfg_kinds) (p : ModelPciCaps.found).
Local Notation cr := (config_read (cfg_deliver rd wr tg) crs dev).
Local Notation cw := (config_write (cfg_deliver rd wr tg) dev).
(** The PCI Express capability that the host found. *)
Record exp_at (f : fnc) (i : nat) : Prop := mkExp {
  e_in : In i (f_caps f); e_sep : disjoint (f_heap f) (f_caps f); e_off : 16 <= off (f_heap f i); e_end : off (f_heap f i) + c_len (f_heap f i) <= 64;
  e_kind : c_kind (f_heap f i) = KPcie; e_found : get_capability_offset EXP p = Some (4 * off (f_heap f i)) }.
Lemma exp_reg f i r : exp_at f i -> 0 <= r < c_len (f_heap f i) ->
  rd f (off (f_heap f i) + r) = cap_read (f_heap f i) r /\ ms f (off (f_heap f i) + r) = Some (pcie_rw r, pcie_w1c r, tab [(6, 0x01000800); (12, 0x80200000)] r).
Proof.
  intros [X1 X2 X3 X4 X5 X6] H. split.
  - rewrite (proj1 (space_read _ _ f (off (f_heap f i) + r) (kinds_spaces _ _ _ W)) ltac:(lia)). apply owner_read; assumption.
  - assert (G : forall a b e, cfg_masks a b e f (off (f_heap f i) + r) = Some (pcie_rw r, pcie_w1c r, tab [(6, 0x01000800); (12, 0x80200000)] r)).
    { intros a b e. unfold cfg_masks. replace (off (f_heap f i) + r <? 16) with false by lia. unfold owner.
      replace ((16 <=? off (f_heap f i) + r) && (off (f_heap f i) + r <? 64)) with true by lia. rewrite owner_find by assumption.
      unfold cap_masks. rewrite X5. replace (off (f_heap f i) + r - off (f_heap f i)) with r by lia. reflexivity. }
    destruct W as [E|[E|[E|[]]]]; injection E as <- <- <-; apply G.
Qed.
Lemma exp_value f i r : exp_at f i -> 0 <= r < c_len (f_heap f i) -> 1 <= r -> exists v, rd f (off (f_heap f i) + r) = Ok (Some v) /\ 0 <= v < 2 ^ 32.
Proof.
  intros X H R1. rewrite (proj1 (exp_reg f i r X H)). unfold cap_read. rewrite (e_kind _ _ X). cbn [is_ext].
  replace (r =? 0) with false by lia. cbv iota. cbn [kind_read].
  destruct (pec_shows (c_attr (f_heap f i)) r) as (v & E & V & _). exists v. rewrite E. split; [reflexivity|exact V].
Qed.
Lemma exp_id f i : exp_at f i -> exp_at (with_id dev f) i.
Proof. intros [X1 X2 X3 X4 X5 X6]. constructor; assumption. Qed.
Lemma exp_offset f i : exp_at f i -> cap_offset EXP p = Ok (4 * off (f_heap f i)).
Proof. intros X. pose proof (e_off _ _ X). apply found_offset; [exact (e_found _ _ X)|lia]. Qed.

(** ** Device control *)
Definition dc_after (b : bool) (g v : Z) : Z := g mod 65536 + status_after b (v / 65536) * 65536.
Lemma dc_rmw (g : Z -> Z) f i : at_id dev f -> exp_at f i -> 3 <= c_len (f_heap f i) ->
  (forall x, 0 <= x < 2 ^ 32 -> 0 <= g x < 2 ^ 32 /\ forall j, 15 <= j -> Z.testbit (g x) j = Z.testbit x j) ->
  exists v, rd f (off (f_heap f i) + 2) = Ok (Some v) /\ 0 <= v < 2 ^ 32 /\ cap_read_dword cr p EXP 8 f = Ok (with_id dev f, v) /\
    exists f', cap_write_dword cw p EXP 8 (g v) (with_id dev f) = Ok f' /\ f_id f' = dev /\ others_kept rd ms (off (f_heap f i) + 2) f f' /\
      rd f' (off (f_heap f i) + 2) = Ok (Some (dc_after true (g v) v)).
Proof.
  intros A X L G. destruct (exp_value f i 2 X ltac:(lia) ltac:(lia)) as (v & R & V). exists v. split; [exact R|]. split; [exact V|].
  destruct (G v V) as [G1 G2]. rewrite (cap_rd4 cr p EXP _ (exp_offset f i X)), (cap_wr4 cr cw p EXP _ (exp_offset f i X)) by exact G1.
  replace (8 + 4 * off (f_heap f i)) with (4 * (off (f_heap f i) + 2)) by lia.
  split; [exact (read_four rd wr ms tg crs dev W f _ v A R V)|].
  destruct (exp_reg f i 2 X ltac:(lia)) as [_ M].
  destruct (write_part rd wr ms tg dev W (with_id dev f) (off (f_heap f i) + 2) 0 4 (g v) v _ _ _ (at_own dev f) ltac:(lia) ltac:(lia) ltac:(lia) V
    (eq_trans (proj1 (kinds_id _ _ _ W dev f _)) R) (eq_trans (proj2 (kinds_id _ _ _ W dev f _)) M) eq_refl) as (f' & v' & E & ID & R' & _ & B & K).
  rewrite Z.add_0_r in E. exists f'. split; [exact E|]. split; [exact ID|]. split; [exact (kept_trans _ _ _ _ _ _ (kept_id rd wr ms dev W _ f) K)|].
  rewrite R'. do 2 f_equal. apply Z.bits_inj'. intros j Hj. rewrite B by exact Hj. unfold part_bit, dc_after, status_after. change (8 * 0) with 0. change (8 * (0 + Z.of_nat 4)) with 32.
  change (pcie_rw 2) with (Z.ones 15). change (pcie_w1c 2) with (0x4f * 2 ^ 16). change 65536 with (2 ^ 16). rewrite Z.sub_0_r.
  replace (0 <=? j) with true by lia. cbn [andb].
  destruct (Z.ltb_spec j 15) as [C1|C1].
  - replace (j <? 32) with true by lia. rewrite Z.ones_spec_low by lia. rewrite glue_low by (try apply Z.mod_pos_bound; lia). rewrite Z.mod_pow2_bits_low by lia. reflexivity.
  - rewrite Z.ones_spec_high by lia. destruct (Z.ltb_spec j 16) as [C2|C2].
    + assert (j = 15) as -> by lia. change (Z.testbit (79 * 2 ^ 16) 15) with false. change (15 <? 32) with true. cbv iota.
      rewrite glue_low by (try apply Z.mod_pos_bound; lia). rewrite Z.mod_pow2_bits_low by lia. symmetry. apply G2. lia.
    + rewrite glue_high by (try apply Z.mod_pos_bound; lia). rewrite Z.ldiff_spec, Z.div_pow2_bits by lia. replace (j - 16 + 16) with j by lia.
      rewrite Z.mul_pow2_bits by lia. rewrite G2 by lia. destruct (Z.ltb_spec j 32) as [C3|C3].
      * destruct (Z.testbit 79 (j - 16)); destruct (Z.testbit v j); reflexivity.
      * rewrite (testbit_high v 32) by lia. reflexivity.
Qed.
(** Writing a field of device control, if it has another value. *)
Lemma dc_field b w x m f i : at_id dev f -> exp_at f i -> 3 <= c_len (f_heap f i) -> 0 <= b -> 0 <= w -> b + w <= 15 -> 0 <= x < 2 ^ w -> m = Z.ones w * 2 ^ b ->
  exists v f', rd f (off (f_heap f i) + 2) = Ok (Some v) /\ 0 <= v < 2 ^ 32 /\
    ('(s, old) <- cap_read_dword cr p EXP 8 f ;;
     let new := Z.lor (Z.land old (Z.lnot m)) (Z.shiftl x b) in if negb (new =? old) then cap_write_dword cw p EXP 8 new s else Ok s) = Ok f' /\
    f_id f' = dev /\ others_kept rd ms (off (f_heap f i) + 2) f f' /\
    rd f' (off (f_heap f i) + 2) = Ok (Some (with_field b w x (v mod 65536) + status_after (negb ((v / 2 ^ b) mod 2 ^ w =? x)) (v / 65536) * 65536)).
Proof.
  intros A X L B Wd N XR EM.
  destruct (dc_rmw (with_field b w x) f i A X L) as (v & R & V & E & f' & E2 & ID & K & R').
  { intros y Y. split; [apply field_range; lia|]. intros j Hj. rewrite field_bit by lia. replace ((b <=? j) && (j <? b + w)) with false by lia. reflexivity. }
  exists v. rewrite E. cbn [bind]. cbv zeta. rewrite (field_land b w x v m) by lia. pose proof (field_same b w x v B Wd XR ltac:(lia)) as FS.
  destruct (Z.eqb_spec (with_field b w x v) v) as [Q|Q]; cbn [negb].
  - exists (with_id dev f). split; [exact R|]. split; [exact V|]. split; [reflexivity|]. split; [reflexivity|]. split; [apply (kept_id rd wr ms dev W)|].
    rewrite (proj1 (kinds_id _ _ _ W dev f _)). rewrite R. do 2 f_equal. rewrite (proj2 (Z.eqb_eq _ _) (proj1 FS Q)). cbn [negb status_after].
    rewrite <- field_dc by lia. rewrite Q. lia.
  - exists f'. split; [exact R|]. split; [exact V|]. split; [exact E2|]. split; [exact ID|]. split; [exact K|]. rewrite R'. unfold dc_after. rewrite field_dc by lia.
    destruct (Z.eqb_spec ((v / 2 ^ b) mod 2 ^ w) x) as [Y|Y]; [exfalso; apply Q, FS, Y|]. reflexivity.
Qed.
Lemma readrq_ok x f i : at_id dev f -> exp_at f i -> 3 <= c_len (f_heap f i) -> 0 <= x <= 5 ->
  exists v f', rd f (off (f_heap f i) + 2) = Ok (Some v) /\ 0 <= v < 2 ^ 32 /\ write_readrq cr cw p x f = Ok f' /\
    f_id f' = dev /\ others_kept rd ms (off (f_heap f i) + 2) f f' /\
    rd f' (off (f_heap f i) + 2) = Ok (Some (with_field 12 3 x (v mod 65536) + status_after (negb ((v / 2 ^ 12) mod 2 ^ 3 =? x)) (v / 65536) * 65536)).
Proof.
  intros A X L H. unfold write_readrq. replace ((x <? 0) || (x >? 5)) with false by lia. apply dc_field; try assumption; try lia; reflexivity.
Qed.
Lemma mps_ok mpss x f i : at_id dev f -> exp_at f i -> 3 <= c_len (f_heap f i) -> 0 <= x <= 5 -> x <= mpss ->
  exists v f', rd f (off (f_heap f i) + 2) = Ok (Some v) /\ 0 <= v < 2 ^ 32 /\ write_mps cr cw p mpss x f = Ok f' /\
    f_id f' = dev /\ others_kept rd ms (off (f_heap f i) + 2) f f' /\
    rd f' (off (f_heap f i) + 2) = Ok (Some (with_field 5 3 x (v mod 65536) + status_after (negb ((v / 2 ^ 5) mod 2 ^ 3 =? x)) (v / 65536) * 65536)).
Proof.
  intros A X L H HM. unfold write_mps. replace ((x <? 0) || (x >? 5) || (x >? mpss)) with false by lia. apply dc_field; try assumption; try lia; reflexivity.
Qed.
Lemma is_pcie_ok f i : exp_at f i -> is_pcie p = true.
Proof. intros X. pose proof (e_off _ _ X). unfold is_pcie. rewrite (e_found _ _ X). replace (4 * off (f_heap f i) =? 0) with false by lia. reflexivity. Qed.
Lemma tags_ok devcap f i : at_id dev f -> exp_at f i -> 3 <= c_len (f_heap f i) -> 0 <= devcap ->
  exists v f', rd f (off (f_heap f i) + 2) = Ok (Some v) /\ 0 <= v < 2 ^ 32 /\ configure_extended_tags cr cw p devcap f = Ok f' /\
    at_id dev f' /\ others_kept rd ms (off (f_heap f i) + 2) f f' /\
    rd f' (off (f_heap f i) + 2) = Ok (Some (if Z.testbit devcap 5 then with_field 8 1 1 (v mod 65536) + status_after (negb (Z.testbit v 8)) (v / 65536) * 65536 else v)).
Proof.
  intros A X L HD. destruct (dc_rmw (with_field 8 1 1) f i A X L) as (v & R & V & E & f' & E2 & ID & K & R').
  { intros y Y. split; [apply field_range; lia|]. intros j Hj. rewrite field_bit by lia. replace ((8 <=? j) && (j <? 8 + 1)) with false by lia. reflexivity. }
  exists v. unfold configure_extended_tags. rewrite (is_pcie_ok f i X). cbn [negb]. rewrite (proj1 (bit_tested devcap 5 HD ltac:(lia))).
  destruct (Z.testbit devcap 5); cbn [negb].
  - rewrite E. cbn [bind]. destruct (bit_tested v 8 ltac:(lia) ltac:(lia)) as [-> Q]. destruct (Z.testbit v 8) eqn:T; cbn [negb].
    + exists (with_id dev f). split; [exact R|]. split; [exact V|]. split; [reflexivity|]. split; [apply at_own|]. split; [apply (kept_id rd wr ms dev W)|].
      rewrite (proj1 (kinds_id _ _ _ W dev f _)). rewrite R. do 2 f_equal. cbn [status_after]. rewrite <- field_dc by lia.
      rewrite (proj2 (field_same 8 1 1 v ltac:(lia) ltac:(lia) ltac:(lia) ltac:(lia))) by exact Q. lia.
    + exists f'. rewrite one_bit by lia. split; [exact R|]. split; [exact V|]. split; [exact E2|]. split; [unfold at_id; rewrite ID; split; reflexivity|]. split; [exact K|].
      rewrite R'. unfold dc_after. rewrite field_dc by lia. reflexivity.
  - exists f. split; [exact R|]. split; [exact V|]. split; [reflexivity|]. split; [exact A|]. split; [apply kept_refl|exact R].
Qed.
(** Reading the fields back. *)
Lemma field_read b w f i v : at_id dev f -> exp_at f i -> 3 <= c_len (f_heap f i) -> 0 <= b -> 0 <= w -> rd f (off (f_heap f i) + 2) = Ok (Some v) -> 0 <= v < 2 ^ 32 ->
  ('(s, devctl) <- cap_read_dword cr p EXP 8 f ;; Ok (s, Z.land (Z.shiftr devctl b) (Z.ones w))) = Ok (with_id dev f, (v / 2 ^ b) mod 2 ^ w).
Proof.
  intros A X L B Wd R V. rewrite (cap_rd4 cr p EXP _ (exp_offset f i X)).
  replace (8 + 4 * off (f_heap f i)) with (4 * (off (f_heap f i) + 2)) by lia. rewrite (read_four rd wr ms tg crs dev W f _ v A R V). cbn [bind].
  rewrite Z.land_ones, Z.shiftr_div_pow2 by lia. reflexivity.
Qed.

(** Reading back. *)
Lemma field_back b w x o v f : at_id dev f -> get_capability_offset EXP p = Some (4 * o) -> 0 < o -> 0 <= b -> 0 <= w -> b + w <= 15 -> 0 <= x < 2 ^ w -> 0 <= v < 65536 ->
  (exists s, 0 <= s < 65536 /\ rd f (o + 2) = Ok (Some (with_field b w x v + s * 65536))) ->
  ('(s, devctl) <- cap_read_dword cr p EXP 8 f ;; Ok (s, Z.land (Z.shiftr devctl b) (Z.ones w))) = Ok (with_id dev f, x).
Proof.
  intros A G O1 B Wd N X V (s & HS & R). pose proof (field_range b w x v 16 B Wd ltac:(lia) X ltac:(lia)) as FL. change (2 ^ 16) with 65536 in FL.
  rewrite (cap_rd4 cr p EXP _ (found_offset _ _ _ G O1)). replace (8 + 4 * o) with (4 * (o + 2)) by lia.
  rewrite (read_four rd wr ms tg crs dev W f _ _ A R ltac:(lia)). cbn [bind]. do 2 f_equal.
  apply Z.bits_inj'. intros j Hj. rewrite Z.land_ones, Z.shiftr_div_pow2 by lia. destruct (Z.lt_ge_cases j w) as [L|L].
  - rewrite Z.mod_pow2_bits_low by lia. rewrite Z.div_pow2_bits by lia. change 65536 with (2 ^ 16) at 1. rewrite (Z.add_comm (with_field _ _ _ _)).
    assert (T : Z.testbit (s * 2 ^ 16 + with_field b w x v) (j + b) = Z.testbit (with_field b w x v) (j + b)).
    { rewrite <- (Z.mod_pow2_bits_low _ 16 (j + b)) by lia. rewrite Z.add_comm, Z.mod_add by lia. apply Z.mod_pow2_bits_low. lia. }
    rewrite T. rewrite field_bit by lia. replace ((b <=? j + b) && (j + b <? b + w)) with true by lia. f_equal. lia.
  - rewrite Z.mod_pow2_bits_high by lia. symmetry. rewrite <- (Z.mod_small x (2 ^ w)) by exact X. apply Z.mod_pow2_bits_high. lia.
Qed.

(** ** CRS software visibility *)
Lemma read_across f r v u : at_id dev f -> rd f r = Ok (Some v) -> rd f (r + 1) = Ok (Some u) -> 0 <= v < 2 ^ 32 -> 0 <= u < 2 ^ 32 ->
  cfg_read_dword cr (4 * r + 2) f = Ok (with_id dev f, v / 65536 + 65536 * (u mod 65536)).
Proof.
  intros A R1 R2 V U. destruct (host_read rd wr ms tg crs dev (4 * r + 2) 4 f W ltac:(lia) A) as (d & E & L & N).
  { intros r' H. assert (C : r' = r \/ r' = r + 1) by lia. destruct C as [->| ->]; [exists v|exists u]; split; assumption. }
  unfold cfg_read_dword. rewrite E. change (4 =? 0) with false. cbn [bind]. do 2 f_equal.
  destruct d as [|x [|y [|z [|q [|w d]]]]]; unfold zlen in L; cbn [length] in L; try lia.
  pose proof (N 0 ltac:(lia)) as N0. pose proof (N 1 ltac:(lia)) as N1. pose proof (N 2 ltac:(lia)) as N2. pose proof (N 3 ltac:(lia)) as N3.
  unfold cfg_byte in N0, N1, N2, N3.
  assert (Q : (4 * r + 2 + 0) / 4 = r /\ (4 * r + 2 + 1) / 4 = r /\ (4 * r + 2 + 2) / 4 = r + 1 /\ (4 * r + 2 + 3) / 4 = r + 1 /\
    (4 * r + 2 + 0) mod 4 = 2 /\ (4 * r + 2 + 1) mod 4 = 3 /\ (4 * r + 2 + 2) mod 4 = 0 /\ (4 * r + 2 + 3) mod 4 = 1) by (clear; lia).
  destruct Q as (Q0 & Q1 & Q2 & Q3 & Q4 & Q5 & Q6 & Q7). rewrite Q0, R1, Q4 in N0. rewrite Q1, R1, Q5 in N1. rewrite Q2, R2, Q6 in N2. rewrite Q3, R2, Q7 in N3.
  change (2 ^ (8 * 2)) with 65536 in N0. change (2 ^ (8 * 3)) with 16777216 in N1. change (2 ^ (8 * 0)) with 1 in N2. change (2 ^ (8 * 1)) with 256 in N3.
  rewrite Z.div_1_r in N2. cbn [nth Z.to_nat Pos.to_nat Pos.iter_op Init.Nat.add] in N0, N1, N2, N3.
  injection N0 as <-. injection N1 as <-. injection N2 as <-. injection N3 as <-. cbn [from_le]. clear - V U. lia.
Qed.
Lemma crs_ok f i : at_id dev f -> exp_at f i -> 9 <= c_len (f_heap f i) ->
  exists v f', rd f (off (f_heap f i) + 7) = Ok (Some v) /\ 0 <= v < 2 ^ 32 /\ enable_crs cr cw p f = Ok f' /\
    f_id f' = dev /\ others_kept rd ms (off (f_heap f i) + 7) f f' /\
    rd f' (off (f_heap f i) + 7) = Ok (Some (if Z.testbit v 16 then with_field 4 1 1 v else v)).
Proof.
  intros A X L. destruct (exp_value f i 7 X ltac:(lia) ltac:(lia)) as (v & R & V). destruct (exp_value f i 8 X ltac:(lia) ltac:(lia)) as (u & R8 & U).
  exists v. unfold enable_crs. rewrite (is_pcie_ok f i X). cbn [negb].
  rewrite (cap_rd4 cr p EXP _ (exp_offset f i X)). replace (30 + 4 * off (f_heap f i)) with (4 * (off (f_heap f i) + 7) + 2) by lia.
  replace (off (f_heap f i) + 8) with (off (f_heap f i) + 7 + 1) in R8 by lia.
  rewrite (read_across f _ v u A R R8 V U). cbn [bind].
  assert (T : zbool (Z.land (v / 65536 + 65536 * (u mod 65536)) 1) = Z.testbit v 16).
  { change 1 with (Z.shiftl 1 0) at 1. rewrite (proj1 (bit_tested (v / 65536 + 65536 * (u mod 65536)) 0 ltac:(lia) ltac:(lia))). rewrite (Z.mul_comm 65536). change 65536 with (2 ^ 16).
    rewrite glue_low by lia. rewrite Z.div_pow2_bits by lia. reflexivity. }
  rewrite T. clear T. set (g := with_id dev f). assert (AG : at_id dev g) by apply at_own. pose proof (exp_id f i X) as XG. fold g in XG.
  assert (RG : rd g (off (f_heap f i) + 7) = Ok (Some v)) by (unfold g; rewrite (proj1 (kinds_id _ _ _ W dev f _)); exact R).
  destruct (Z.testbit v 16) eqn:T16.
  - rewrite (cap_rd2 cr p EXP _ (exp_offset f i X)). replace (28 + 4 * off (f_heap f i)) with (4 * (off (f_heap f i) + 7)) by lia.
    rewrite (read_low rd wr ms tg crs dev W g _ v AG RG V). cbn [bind]. change (with_id dev g) with g. change (Z.lor (v mod 65536) 16) with (Z.lor (v mod 65536) (Z.shiftl 1 4)).
    rewrite one_bit by lia. pose proof (field_same 4 1 1 (v mod 65536) ltac:(lia) ltac:(lia) ltac:(lia) ltac:(lia)) as FS.
    pose proof (field_range 4 1 1 (v mod 65536) 16 ltac:(lia) ltac:(lia) ltac:(lia) ltac:(lia) ltac:(lia)) as FR.
    destruct (Z.eqb_spec (with_field 4 1 1 (v mod 65536)) (v mod 65536)) as [Q|Q]; cbn [negb].
    + exists g. split; [exact R|]. split; [exact V|]. split; [reflexivity|]. split; [reflexivity|]. split; [apply (kept_id rd wr ms dev W)|].
      rewrite RG. do 2 f_equal. symmetry. apply field_same; [lia|lia|lia|lia|]. apply FS in Q. clear - Q. lia.
    + rewrite (cap_wr2 cr cw p EXP _ (exp_offset f i X)) by exact FR. replace (28 + 4 * off (f_heap f i)) with (4 * (off (f_heap f i) + 7)) by lia.
      destruct (exp_reg g i 7 XG ltac:(cbn; lia)) as [_ M]. change (f_heap g) with (f_heap f) in M.
      destruct (write_part rd wr ms tg dev W g (off (f_heap f i) + 7) 0 2 (with_field 4 1 1 (v mod 65536)) v _ _ _ AG ltac:(lia) ltac:(lia) ltac:(lia) V RG M eq_refl)
        as (f' & v' & E & ID & R' & _ & B & K).
      rewrite Z.add_0_r in E. exists f'. split; [exact R|]. split; [exact V|]. split; [exact E|]. split; [exact ID|].
      split; [exact (kept_trans _ _ _ _ _ _ (kept_id rd wr ms dev W _ f) K)|].
      rewrite R'. do 2 f_equal. apply Z.bits_inj'. intros j Hj. rewrite B by exact Hj. unfold part_bit. change (8 * 0) with 0. change (8 * (0 + Z.of_nat 2)) with 16.
      change (pcie_rw 7) with (Z.ones 5). change (pcie_w1c 7) with 0. rewrite Z.bits_0, Z.sub_0_r. replace (0 <=? j) with true by lia. cbn [andb].
      rewrite !field_bit by lia. change 65536 with (2 ^ 16). destruct (Z.ltb_spec j 16) as [C|C].
      * rewrite Z.mod_pow2_bits_low by lia. destruct (Z.ltb_spec j 5) as [D|D]; [rewrite Z.ones_spec_low by lia; reflexivity|].
        rewrite Z.ones_spec_high by lia. replace ((4 <=? j) && (j <? 4 + 1)) with false by lia. reflexivity.
      * replace ((4 <=? j) && (j <? 4 + 1)) with false by lia. reflexivity.
  - exists g. split; [exact R|]. split; [exact V|]. split; [reflexivity|]. split; [reflexivity|]. split; [apply (kept_id rd wr ms dev W)|exact RG].
Qed.
End Access.

(** ** SERR forwarding of a bridge *)
Lemma serr_ok tg crs dev f : at_id dev f -> exists v f', br_read f 15 = Ok (Some v) /\
  configure_serr (config_read (cfg_deliver br_read br_write tg) crs dev) (config_write (cfg_deliver br_read br_write tg) dev) 1 f = Ok f' /\
  f_id f' = dev /\ others_kept br_read (cfg_masks br_rw br_w1c (SpecRegs.tab [(3, 0x40000000)])) 15 f f' /\ br_read f' 15 = Ok (Some (with_field 17 1 1 v)).
Proof.
  intros A. set (ms := cfg_masks br_rw br_w1c (SpecRegs.tab [(3, 0x40000000)])). assert (W : In (br_read, br_write, ms) cfg_kinds) by (cbn; auto).
  assert (RV : exists v, br_read f 15 = Ok (Some v) /\ 0 <= v < 2 ^ 32).
  { destruct (br_shows (mkFn (aset (fn_bar 0) 0 (aset (fn_bar 1) 0 (aset fn_capabilities_ptr 0 (f_attr f)))) (f_heap f) (f_caps f) (f_ecaps f) (f_id f)) 15) as (v & E & V & _);
      try (cbn; lia). exists v. split; [|exact V]. rewrite <- E. reflexivity. }
  destruct RV as (v & R & V). exists v. unfold configure_serr. change (1 =? 1) with true. cbn [negb]. change 0x3e with (4 * 15 + 2).
  rewrite (read_upper br_read br_write ms tg crs dev W f 15 v A R V). cbn [bind]. set (g := with_id dev f).
  assert (AG : at_id dev g) by apply at_own. assert (RG : br_read g 15 = Ok (Some v)) by exact R.
  change (Z.land (v / 65536) 2) with (Z.land (v / 65536) (Z.shiftl 1 1)). change (Z.lor (v / 65536) 2) with (Z.lor (v / 65536) (Z.shiftl 1 1)). destruct (bit_tested (v / 65536) 1 ltac:(lia) ltac:(lia)) as [-> Q].
  assert (T : Z.testbit (v / 65536) 1 = Z.testbit v 17) by (change 65536 with (2 ^ 16); rewrite Z.div_pow2_bits by lia; reflexivity). rewrite T in *. destruct (Z.testbit v 17) eqn:T17; cbn [negb].
  - exists g. split; [exact R|]. split; [reflexivity|]. split; [reflexivity|]. split; [apply (kept_id br_read br_write ms dev W)|].
    rewrite RG. do 2 f_equal. symmetry. apply field_same; [lia|lia|lia|lia|]. change (Z.b2z true) with 1 in Q. clear - Q. lia.
  - rewrite one_bit by lia. unfold cfg_write_word, to_bytes. pose proof (field_range 1 1 1 (v / 65536) 16 ltac:(lia) ltac:(lia) ltac:(lia) ltac:(lia) ltac:(lia)) as FR.
    replace ((0 <=? with_field 1 1 1 (v / 65536)) && (with_field 1 1 1 (v / 65536) <? 256 ^ Z.of_nat 2)) with true by (change (256 ^ Z.of_nat 2) with (2 ^ 16); lia). cbn [bind].
    destruct (write_part br_read br_write ms tg dev W g 15 2 2 (with_field 1 1 1 (v / 65536)) v 0x004300ff 0 0 AG ltac:(lia) ltac:(lia) ltac:(lia) V RG eq_refl eq_refl)
      as (f' & v' & E & ID & R' & _ & B & K).
    exists f'. split; [exact R|]. split; [exact E|]. split; [exact ID|]. split; [exact (kept_trans _ _ _ _ _ _ (kept_id br_read br_write ms dev W _ f) K)|].
    rewrite R'. do 2 f_equal. apply Z.bits_inj'. intros j Hj. rewrite B by exact Hj. unfold part_bit. change (8 * 2) with 16. change (8 * (2 + Z.of_nat 2)) with 32.
    rewrite Z.bits_0. rewrite (field_bit 17) by lia. destruct (Z.leb_spec 16 j) as [C|C]; cbn [andb].
    + destruct (Z.ltb_spec j 32) as [D|D].
      * rewrite field_bit by lia. change 65536 with (2 ^ 16). rewrite Z.div_pow2_bits by lia. replace (j - 16 + 16) with j by lia.
        destruct (Z.eqb_spec j 17) as [->|N]; [reflexivity|]. replace ((1 <=? j - 16) && (j - 16 <? 1 + 1)) with false by lia.
        replace ((17 <=? j) && (j <? 17 + 1)) with false by lia. destruct (Z.testbit _ j); reflexivity.
      * replace ((17 <=? j) && (j <? 17 + 1)) with false by lia. reflexivity.
    + replace ((17 <=? j) && (j <? 17 + 1)) with false by lia. reflexivity.
Qed.
