(** Driver functions: read, modify, write. *)
From Coq Require Import Lia.
From Verif Require Import Base BaseProofs Bits ModelUtils ModelTlp ModelTags ModelAttrs ModelCaps ModelCapList ModelConfig ModelFunction ModelHost
  ModelPci ModelPciCaps ModelDriver SpecRegs SpecConfig SpecHost SpecCapList SpecCapFn SpecPciCaps SpecDriver
  ProofsConfigTop ProofsHost ProofsBar ProofsCapWalk ProofsPciCaps.

(** ** One write within a register *)
Lemma kinds_readable rd wr ms f : In (rd, wr, ms) cfg_kinds -> exists v, rd f 1 = Ok (Some v) /\ 0 <= v < 2 ^ 32.
Proof.
  intros W. destruct (fn_shows f 1 ltac:(lia)) as (v & E & V & _). exists v. split; [|exact V].
  destruct W as [W|[W|[W|[]]]]; injection W as <- <- <-; exact E.
Qed.
(** Bit [i] after writing [x], [n] bytes from byte [o] on. *)
Definition part_bit (rw w1c o n x v i : Z) : bool :=
  if (8 * o <=? i) && (i <? 8 * (o + n)) then
    let b := Z.testbit x (i - 8 * o) in if Z.testbit rw i then b else if Z.testbit w1c i then Z.testbit v i && negb b else Z.testbit v i
  else Z.testbit v i.
Lemma le_bytes_bit n x j : 0 <= j < 8 * Z.of_nat n -> Z.testbit (nth (Z.to_nat (j / 8)) (le_bytes n x) 0) (j mod 8) = Z.testbit x j.
Proof.
  intros H. rewrite le_bytes_nth by lia. rewrite byte_of by lia. rewrite Z.land_spec, Z.shiftr_spec by lia.
  change 255 with (Z.ones 8). rewrite Z.ones_spec_low by lia. rewrite andb_true_r. f_equal. lia.
Qed.
Definition put_bit (b : Z) (en : bool) (v : Z) : Z := if en then Z.lor v (2 ^ b) else Z.ldiff v (2 ^ b).
Lemma put_bit_spec b en v i : 0 <= b -> 0 <= i -> Z.testbit (put_bit b en v) i = if i =? b then en else Z.testbit v i.
Proof.
  intros B I0. unfold put_bit. destruct en; rewrite ?Z.lor_spec, ?Z.ldiff_spec, Z.pow2_bits_eqb by lia; rewrite (Z.eqb_sym b i);
    destruct (i =? b), (Z.testbit v i); reflexivity.
Qed.
Lemma low16 v i : 0 <= v < 2 ^ 32 -> 0 <= i < 16 -> Z.testbit (v mod 65536) i = Z.testbit v i.
Proof. intros V H. change 65536 with (2 ^ 16). apply Z.mod_pow2_bits_low. lia. Qed.
Lemma fits16 x y : 0 <= x < 2 ^ 16 -> 0 <= y < 2 ^ 16 -> 0 <= Z.lor x y < 2 ^ 16.
Proof.
  intros X Y. apply bits_range; [lia|]. intros j H. rewrite Z.lor_spec, !(testbit_high _ 16) by lia. reflexivity.
Qed.
Lemma lor_parts v c : 0 <= v -> 0 <= c < 65536 -> v - v mod 65536 + Z.lor (v mod 65536) c = Z.lor v c.
Proof.
  intros V C. replace (v - v mod 65536) with ((v / 2 ^ 16) * 2 ^ 16) by lia. apply Z.bits_inj'. intros i Hi.
  assert (L : 0 <= Z.lor (v mod 65536) c < 2 ^ 16) by (apply fits16; lia). rewrite Z.add_comm, Z.lor_spec. destruct (Z.lt_ge_cases i 16) as [H|H].
  - rewrite <- (Z.mod_pow2_bits_low (_ + _) 16 i) by lia. rewrite Z.mod_add by lia. rewrite (Z.mod_small (Z.lor _ _)) by lia. rewrite Z.lor_spec.
    change 65536 with (2 ^ 16). rewrite Z.mod_pow2_bits_low by lia. reflexivity.
  - replace i with ((i - 16) + 16) at 1 by lia. rewrite <- Z.div_pow2_bits by lia. rewrite Z.div_add by lia. rewrite (Z.div_small (Z.lor _ _)) by lia.
    rewrite Z.add_0_l, Z.div_pow2_bits by lia. rewrite (testbit_high c 16) by lia. rewrite orb_false_r. f_equal. lia.
Qed.
Section Access.
Context (rd : fnc -> Z -> res (option Z)) (wr : Z -> Z -> Z -> fnc -> fnc) (ms : fnc -> Z -> option (Z * Z * Z)) (tg : Z -> Z)
  (crs : option bool) (dev : pcie_id) (W : In (rd, wr, ms) cfg_kinds).
Local Notation cr := (config_read (cfg_deliver rd wr tg) crs dev).
Local Notation cw := (config_write (cfg_deliver rd wr tg) dev).
Lemma write_part f r o n x v rw w1c exc : at_id dev f -> 0 <= o -> (1 <= n)%nat -> o + Z.of_nat n <= 4 -> 0 <= v < 2 ^ 32 ->
  rd f r = Ok (Some v) -> ms f r = Some (rw, w1c, exc) -> exc = 0 ->
  exists f' v', cw (4 * r + o) (le_bytes n x) f = Ok f' /\ f_id f' = dev /\ rd f' r = Ok (Some v') /\ ms f' r = Some (rw, w1c, exc) /\
    (forall i, 0 <= i -> Z.testbit v' i = part_bit rw w1c o (Z.of_nat n) x v i) /\ others_kept rd ms r f f'.
Proof.
  intros A Ho Hn Hon V R M E0. destruct (host_write rd wr ms tg dev (4 * r + o) (le_bytes n x) f W A (le_bytes_ok n x)) as (f' & E & ID & P).
  assert (L : zlen (le_bytes n x) = Z.of_nat n) by (unfold zlen; rewrite le_bytes_length; reflexivity).
  assert (NE : le_bytes n x <> []) by (intros Q; rewrite Q in L; cbn in L; lia).
  destruct (P r v rw w1c exc R M) as (v' & R' & M' & B & _). exists f', v'. split; [exact E|]. split; [exact (ID NE)|]. split; [exact R'|]. split; [exact M'|]. split.
  - intros i Hi. rewrite B by (try exact Hi; rewrite E0; apply Z.bits_0). unfold host_bit, part_bit. rewrite L.
    destruct ((8 * o <=? i) && (i <? 8 * (o + Z.of_nat n))) eqn:C.
    + replace ((i <? 32) && (4 * r + o <=? 4 * r + i / 8) && (4 * r + i / 8 <? 4 * r + o + Z.of_nat n)) with true by lia.
      replace (4 * r + i / 8 - (4 * r + o)) with ((i - 8 * o) / 8) by lia. replace (i mod 8) with ((i - 8 * o) mod 8) by lia.
      rewrite le_bytes_bit by lia. reflexivity.
    + replace ((i <? 32) && (4 * r + o <=? 4 * r + i / 8) && (4 * r + i / 8 <? 4 * r + o + Z.of_nat n)) with false by lia. reflexivity.
  - intros r' u m Hr R1 M1. destruct m as [[a b] c]. destruct (P r' u a b c R1 M1) as (u' & R2 & M2 & _ & K). rewrite L in K.
    assert (u' = u) as <- by (apply K; right; lia). split; assumption.
Qed.
Lemma read_low f r v : at_id dev f -> rd f r = Ok (Some v) -> 0 <= v < 2 ^ 32 -> cfg_read_word cr (4 * r) f = Ok (with_id dev f, v mod 65536).
Proof.
  intros A R V. unfold cfg_read_word. rewrite (read_two rd wr ms tg crs dev W f r v A R V). cbn [bind from_le]. do 2 f_equal. lia.
Qed.
Lemma read_upper f r v : at_id dev f -> rd f r = Ok (Some v) -> 0 <= v < 2 ^ 32 -> cfg_read_word cr (4 * r + 2) f = Ok (with_id dev f, v / 65536).
Proof.
  intros A R V. unfold cfg_read_word. rewrite (read_high rd wr ms tg crs dev W f r v A R V). cbn [bind from_le]. do 2 f_equal. lia.
Qed.
Lemma kept_refl r f : others_kept rd ms r f f.
Proof. intros r' v m _ R M. split; assumption. Qed.
Lemma kept_trans r f g h : others_kept rd ms r f g -> others_kept rd ms r g h -> others_kept rd ms r f h.
Proof. intros A B r' v m H R M. destruct (A r' v m H R M) as [R1 M1]. exact (B r' v m H R1 M1). Qed.
Lemma kept_id r f : others_kept rd ms r f (with_id dev f).
Proof. intros r' v m _ R M. destruct (kinds_id _ _ _ W dev f r') as [-> ->]. split; assumption. Qed.
Lemma id_value f r : value rd (with_id dev f) r = value rd f r.
Proof. unfold value. rewrite (proj1 (kinds_id _ _ _ W dev f r)). reflexivity. Qed.

(** ** Command register *)
Lemma command_masks f : exists w1c, ms f 1 = Some (0x547, w1c, 0) /\ w1c mod 65536 = 0.
Proof. destruct W as [E|[E|[E|[]]]]; injection E as <- <- <-; eexists; split; reflexivity. Qed.
(** A word of register 1 read, modified and written if it is another one. *)
Lemma rmw_command g f : at_id dev f -> (forall x, 0 <= x < 65536 -> 0 <= g x < 65536 /\ forall i, 3 <= i -> Z.testbit (g x) i = Z.testbit x i) ->
  exists f', ('(s, old) <- cfg_read_word cr 4 f ;; if negb (g old =? old) then cfg_write_word cw 4 (g old) s else Ok s) = Ok f' /\
    f_id f' = dev /\ value rd f' 1 = value rd f 1 - value rd f 1 mod 65536 + g (value rd f 1 mod 65536) /\ others_kept rd ms 1 f f'.
Proof.
  intros A G. destruct (kinds_readable rd wr ms f W) as (v & R & V). change 4 with (4 * 1). rewrite (read_low f 1 v A R V). cbn [bind].
  assert (EV : value rd f 1 = v) by (unfold value; rewrite R; reflexivity). rewrite EV. clear EV.
  destruct (G (v mod 65536) ltac:(lia)) as [G1 G2]. destruct (Z.eqb_spec (g (v mod 65536)) (v mod 65536)) as [E|N]; cbn [negb].
  - exists (with_id dev f). split; [reflexivity|]. split; [reflexivity|]. split; [|apply kept_id].
    rewrite id_value. unfold value. rewrite R, E. lia.
  - unfold cfg_write_word, to_bytes. replace ((0 <=? g (v mod 65536)) && (g (v mod 65536) <? 256 ^ Z.of_nat 2)) with true by (change (256 ^ Z.of_nat 2) with 65536; lia).
    cbn [bind]. destruct (command_masks f) as (w1c & M & MW).
    destruct (write_part (with_id dev f) 1 0 2 (g (v mod 65536)) v 0x547 w1c 0) as (f' & v' & E & ID & R' & _ & B & K); try lia; try assumption.
    { apply at_own. } { rewrite (proj1 (kinds_id _ _ _ W dev f 1)). exact R. } { rewrite (proj2 (kinds_id _ _ _ W dev f 1)). exact M. }
    change (4 * 1 + 0) with (4 * 1) in E. exists f'. split; [exact E|]. split; [exact ID|]. split; [|exact (kept_trans _ _ _ _ (kept_id 1 f) K)].
    unfold value. rewrite R'. apply Z.bits_inj'. intros i Hi. rewrite B by exact Hi. unfold part_bit. change (8 * (0 + Z.of_nat 2)) with 16. change (8 * 0) with 0.
    replace (v - v mod 65536 + g (v mod 65536)) with (g (v mod 65536) + 2 ^ 16 * (v / 2 ^ 16)) by lia.
    destruct (Z.ltb_spec i 16) as [L|L].
    + replace (0 <=? i) with true by lia. cbn [andb]. rewrite Z.sub_0_r.
      transitivity (Z.testbit (g (v mod 65536)) i).
      * assert (NW : Z.testbit w1c i = false).
        { rewrite <- (Z.mod_pow2_bits_low w1c 16 i) by lia. change (2 ^ 16) with 65536. rewrite MW. apply Z.bits_0. }
        rewrite NW. destruct (Z.testbit 0x547 i) eqn:RW; [reflexivity|].
        assert (3 <= i) by (destruct (Z.lt_ge_cases i 3); [|assumption]; assert (C : i = 0 \/ i = 1 \/ i = 2) by lia; destruct C as [->|[->| ->]]; discriminate RW).
        rewrite G2 by assumption. symmetry. apply low16; [exact V|lia].
      * rewrite <- (Z.mod_pow2_bits_low (_ + _) 16 i) by lia. rewrite (Z.mul_comm (2 ^ 16)), Z.mod_add by lia. rewrite (Z.mod_small (g _)) by lia. reflexivity.
    + rewrite andb_false_r. replace i with ((i - 16) + 16) by lia. rewrite <- (Z.div_pow2_bits (_ + _)) by lia.
      rewrite (Z.mul_comm (2 ^ 16)), Z.div_add by lia. rewrite (Z.div_small (g _)) by lia. rewrite Z.add_0_l. rewrite Z.div_pow2_bits by lia. reflexivity.
Qed.
Lemma resources_ok f : at_id dev f ->
  exists f', enable_resources cr cw f = Ok f' /\ f_id f' = dev /\ value rd f' 1 = Z.lor (value rd f 1) 3 /\ others_kept rd ms 1 f f'.
Proof.
  intros A. destruct (kinds_readable rd wr ms f W) as (v & R & V).
  destruct (rmw_command (fun x => Z.lor (Z.lor x (Z.shiftl 1 0)) (Z.shiftl 1 1)) f A) as (f' & E & ID & X & K).
  { intros x X. change (Z.shiftl 1 0) with 1. change (Z.shiftl 1 1) with 2. split; [apply fits16; [apply fits16; lia|lia]|].
    intros i Hi. rewrite !Z.lor_spec, (testbit_high 1 1), (testbit_high 2 2) by lia. rewrite !orb_false_r. reflexivity. }
  exists f'. split; [exact E|]. split; [exact ID|]. split; [|exact K]. rewrite X. unfold value. rewrite R.
  change (Z.shiftl 1 0) with 1. change (Z.shiftl 1 1) with 2. rewrite <- Z.lor_assoc. change (Z.lor 1 2) with 3. apply lor_parts; lia.
Qed.
Lemma master_ok en f : at_id dev f ->
  exists f', write_master cr cw en f = Ok f' /\ f_id f' = dev /\ value rd f' 1 = put_bit 2 en (value rd f 1) /\ others_kept rd ms 1 f f'.
Proof.
  intros A. destruct (kinds_readable rd wr ms f W) as (v & R & V).
  assert (G : forall x, 0 <= x < 65536 -> 0 <= put_bit 2 en x < 65536).
  { intros x X. change 65536 with (2 ^ 16). apply bits_range; [lia|]. intros j H. rewrite put_bit_spec by lia. replace (j =? 2) with false by lia.
    apply (testbit_high x 16); lia. }
  destruct (rmw_command (put_bit 2 en) f A) as (f' & E & ID & X & K).
  { intros x X. split; [apply G; exact X|]. intros i Hi. rewrite put_bit_spec by lia. replace (i =? 2) with false by lia. reflexivity. }
  exists f'. split.
  { unfold write_master. rewrite <- E. change (Z.shiftl 1 2) with 4. unfold put_bit. change (2 ^ 2) with 4.
    destruct (cfg_read_word cr 4 f) as [[s old]|]; [|reflexivity]. cbn [bind]. destruct en; [reflexivity|]. rewrite Z.ldiff_land. reflexivity. }
  split; [exact ID|]. split; [|exact K]. rewrite X. unfold value. rewrite R. replace (v - v mod 65536) with ((v / 2 ^ 16) * 2 ^ 16) by lia.
  pose proof (G (v mod 65536) ltac:(lia)) as GR. apply Z.bits_inj'. intros i Hi. rewrite put_bit_spec by lia. rewrite Z.add_comm. destruct (Z.lt_ge_cases i 16) as [H|H].
  - rewrite <- (Z.mod_pow2_bits_low (_ + _) 16 i) by lia. rewrite Z.mod_add by lia. rewrite (Z.mod_small (put_bit _ _ _)) by lia. rewrite put_bit_spec by lia.
    change 65536 with (2 ^ 16). rewrite Z.mod_pow2_bits_low by lia. reflexivity.
  - replace i with ((i - 16) + 16) at 1 by lia. rewrite <- Z.div_pow2_bits by lia. rewrite Z.div_add by lia. rewrite (Z.div_small (put_bit _ _ _)) by lia.
    rewrite Z.add_0_l, Z.div_pow2_bits by lia. replace (i =? 2) with false by lia. f_equal. lia.
Qed.
(** Another write. *)
Lemma other_ok f addr d : at_id dev f -> bytes_ok d -> addr + zlen d <= 4 \/ 8 <= addr ->
  exists f', cw addr d f = Ok f' /\ at_id dev f' /\ value rd f' 1 = value rd f 1.
Proof.
  intros A BD O. destruct (kinds_readable rd wr ms f W) as (v & R & V). destruct (command_masks f) as (w1c & M & _).
  destruct (host_write rd wr ms tg dev addr d f W A BD) as (f' & E & ID & P). exists f'. split; [exact E|].
  destruct (P 1 v _ _ _ R M) as (v' & R' & _ & _ & K). split.
  - destruct d as [|x d]; [|unfold at_id; rewrite ID by discriminate; split; reflexivity].
    cbn in E. injection E as <-. exact A.
  - unfold value. rewrite R, R'. apply K. lia.
Qed.
End Access.
