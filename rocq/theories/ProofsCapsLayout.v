(** What the registers of the capabilities show (C26, C27). *)
From Verif Require Import Base BaseProofs Bits ModelUtils SpecUtils ProofsUtils ModelAttrs ModelCaps SpecRegs SpecCaps ProofsRegs ProofsCaps.

Ltac tabs := repeat match goal with |- context [tab ?l ?r] =>
  let m := eval vm_compute in (tab l r) in change (tab l r) with m end.
Ltac show2 rd lay := unfold rd, lay; cbn [Z.eqb Pos.eqb Z.leb Z.ltb Z.compare Pos.compare Pos.compare_cont andb]; eexists; split; [reflexivity|]; tabs; shows_solve.
Ltac show1 rd lay r k := destruct (Z.eqb_spec r k);
  [subst r; show2 rd lay|].
Lemma shows_none s exc : shows [] exc s 0.
Proof. repeat split; try lia; [intros f []|]. intros. apply Z.bits_0. Qed.
Ltac rest rd lay := unfold rd, lay; repeat match goal with H : _ <> _ |- _ => apply Z.eqb_neq in H; rewrite ?H; clear H end.

Lemma pmc_shows s r : exists v, pmc_read s r = Some v /\ shows (pm_layout r) 0 s v.
Proof.
  show1 pmc_read pm_layout r 0. show1 pmc_read pm_layout r 1.
  rest pmc_read pm_layout. eexists; split; [reflexivity|apply shows_none].
Qed.

Lemma pec_shows s r : exists v, pec_read s r = Some v /\
  shows (pcie_layout r) (tab [(3, 0x3ffff); (6, 0x800); (12, 0x78000000)] r) s v.
Proof.
  show1 pec_read pcie_layout r 0. show1 pec_read pcie_layout r 1. show1 pec_read pcie_layout r 2.
  show1 pec_read pcie_layout r 3. show1 pec_read pcie_layout r 4. show1 pec_read pcie_layout r 5.
  show1 pec_read pcie_layout r 6. show1 pec_read pcie_layout r 7. show1 pec_read pcie_layout r 8.
  show1 pec_read pcie_layout r 9. show1 pec_read pcie_layout r 10. show1 pec_read pcie_layout r 11.
  show1 pec_read pcie_layout r 12.
  rest pec_read pcie_layout. eexists; split; [reflexivity|apply shows_none].
Qed.

Lemma pxc_shows s r : r = 1 \/ r = 2 \/ 19 <= r -> exists v, pxc_read s r = Some v /\ shows (pcie_ext_layout r) 0 s v.
Proof.
  intros [ -> | [ -> | H ] ]; [show2 pxc_read pcie_ext_layout|show2 pxc_read pcie_ext_layout|].
  unfold pxc_read, pcie_ext_layout.
  replace (r =? 1) with false by lia. replace (r =? 2) with false by lia. replace (r <? 18) with false by lia.
  replace (3 <=? r) with true by lia. replace (r <? 19) with false by lia.
  eexists; split; [reflexivity|apply shows_none].
Qed.

Lemma shows_word s a v exc : v = Z.land (s a) 0xffffffff -> shows [Fld 0 32 (Num a)] exc s v.
Proof.
  intros ->. split; [bits|]. split.
  - intros f [<-|[]] _. cbn [lsb width]. rewrite slice_land, fval_z_ok by (cbn; try reflexivity; lia). cbn [fval_z what width]. bits.
  - intros i Hi N _. rewrite Z.land_spec.
    specialize (N _ (or_introl eq_refl)). cbn [lsb width] in N.
    rewrite (testbit_high 0xffffffff 32 i) by lia. apply andb_false_r.
Qed.
Lemma aec_shows s r : 1 <= r -> exists v, aec_read s r = Some v /\
  shows (aer_layout r) (tab [(6, 0x1f); (11, 0x5)] r) s v.
Proof.
  intros Hr.
  show1 aec_read aer_layout r 1. show1 aec_read aer_layout r 2. show1 aec_read aer_layout r 3.
  show1 aec_read aer_layout r 4.
  show1 aec_read aer_layout r 5. show1 aec_read aer_layout r 6.
  show1 aec_read aer_layout r 11. show1 aec_read aer_layout r 12. show1 aec_read aer_layout r 13.
  unfold tab. rest aec_read aer_layout.
  replace (r <? 11) with (r <=? 10) by lia. replace (r <? 18) with (r <=? 17) by lia.
  destruct ((7 <=? r) && (r <=? 10)); [eexists; split; [reflexivity|apply shows_word; reflexivity]|].
  destruct ((14 <=? r) && (r <=? 17)); [eexists; split; [reflexivity|apply shows_word; reflexivity]|].
  eexists; split; [reflexivity|apply shows_none].
Qed.
