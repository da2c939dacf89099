(** The whole configuration space of the three kinds of function (C23). *)
From Verif Require Import Base BaseProofs Bits ModelUtils SpecUtils ProofsUtils ModelAttrs ModelCaps ModelCapList ModelConfig ModelFunction
  SpecRegs SpecCaps SpecConfig SpecCapList SpecCapFn ProofsRegs ProofsCaps ProofsCapsLayout ProofsConfig ProofsConfigLow
  ProofsCapFn ProofsCapWalk.

Definition header (v n i : Z) : Z := Z.lor (Z.lor (Z.land v 0xffff0000) (Z.shiftl (Z.land n 0xff) 8)) (Z.land i 0xff).
Lemma header_bit v n i k : 0 <= k -> Z.testbit (header v n i) k =
  if k <? 16 then Z.testbit (header 0 n i) k else (k <? 32) && Z.testbit v k.
Proof.
  intros Hk. unfold header. rewrite !Z.lor_spec, !Z.land_spec, Z.bits_0. cbn [andb orb].
  assert (M : Z.testbit 0xffff0000 k = (16 <=? k) && (k <? 32)).
  { change 0xffff0000 with (Z.shiftl (Z.ones 16) 16). rewrite Z.shiftl_spec by lia.
    destruct (Z.leb_spec 16 k); [rewrite Z.testbit_ones_nonneg by lia; cbn [andb]; destruct (Z.ltb_spec k 32); lia|apply Z.testbit_neg_r; lia]. }
  rewrite M. destruct (Z.ltb_spec k 16).
  - replace (16 <=? k) with false by lia. cbn [andb]. rewrite andb_false_r. reflexivity.
  - replace (16 <=? k) with true by lia. cbn [andb].
    rewrite (testbit_high (Z.shiftl (Z.land n 0xff) 8) 16 k) by (try bits; lia).
    rewrite (testbit_high 0xff 8 k) by lia. rewrite andb_false_r, !orb_false_r. apply andb_comm.
Qed.
Lemma upd_old rw w1c be data v w i : Z.testbit v i = Z.testbit w i -> upd_bit rw w1c be data v i = upd_bit rw w1c be data w i.
Proof. intros H. unfold upd_bit. rewrite H. reflexivity. Qed.
Lemma upd_off rw w1c be data v i : Z.testbit rw i = false -> Z.testbit w1c i = false -> upd_bit rw w1c be data v i = Z.testbit v i.
Proof. intros A B. unfold upd_bit. rewrite A, B. destruct (Z.testbit be (i / 8)); reflexivity. Qed.
Lemma upd_far rw w1c be data v i : 0 <= be < 16 -> 32 <= i -> upd_bit rw w1c be data v i = Z.testbit v i.
Proof. intros A B. unfold upd_bit. rewrite (testbit_high be 4 (i / 8)) by lia. reflexivity. Qed.

(** One capability, its own registers. *)
Definition kfollow (k : kind) (s : attrs) (m : attrs -> option ((Z -> Z) * (Z -> Z) * (Z -> Z))) : Prop :=
  forall reg data be r v a b e, 0 <= be < 16 -> kind_read k s r = Some v -> m s = Some (a, b, e) ->
  exists v' a' b' e', kind_read k (kind_write k reg data be s) r = Some v' /\ m (kind_write k reg data be s) = Some (a', b', e') /\
    a' r = a r /\ b' r = b r /\ e' r = e r /\
    if r =? reg then forall i, 0 <= i -> Z.testbit (e r) i = false -> Z.testbit v' i = upd_bit (a r) (b r) be data v i
    else v' = v.
Lemma kfollow_plain k s rw w1c exc : writes_follow (kind_read k) (kind_write k) rw w1c exc ->
  kfollow k s (fun _ => Some (rw, w1c, exc)).
Proof.
  intros H reg data be r v a b e Hbe R E. injection E as <- <- <-.
  destruct (H s reg data be r v Hbe R) as (v' & A & B). exists v', rw, w1c, exc. repeat (split; [solve [exact A|reflexivity]|]). exact B.
Qed.
Lemma kind_follow c : kfollow (c_kind c) (c_attr c) (fun s => cap_masks (c_set_attr s c)).
Proof.
  unfold cap_masks. cbn [c_set_attr c_kind c_attr]. destruct (c_kind c) eqn:K.
  - apply kfollow_plain. exact pmc_write_ok.
  - apply kfollow_plain. exact pec_write_ok.
  - apply kfollow_plain. exact pxc_write_ok.
  - intros reg data be r v a b e Hbe R E. injection E as <- <- <-. cbn [kind_read kind_write] in *.
    destruct (msi_follow _ reg data be r v Hbe R) as (v' & A & B & C).
    exists v'. do 3 eexists. split; [exact A|]. split; [reflexivity|]. split; [exact B|]. split; [reflexivity|].
    split; [reflexivity|]. exact C.
  - apply kfollow_plain. exact msix_follow.
  - apply kfollow_plain. exact aec_write_ok.
  - intros reg data be r v a b e Hbe R E. discriminate E.
Qed.
(** The header of a capability is read only. *)
Lemma masks_header c a b e i : cap_masks c = Some (a, b, e) -> 0 <= i < 16 -> Z.testbit (a 0) i = false /\ Z.testbit (b 0) i = false.
Proof.
  unfold cap_masks. intros H Hi. assert (Z16 : forall x, Z.land x 0xffff = 0 -> Z.testbit x i = false).
  { intros x X. apply (f_equal (fun z => Z.testbit z i)) in X. rewrite Z.land_spec, Z.bits_0 in X.
    change 0xffff with (Z.ones 16) in X. rewrite Z.testbit_ones_nonneg in X by lia.
    replace (i <? 16) with true in X by lia. rewrite andb_true_r in X. exact X. }
  destruct (c_kind c); try discriminate H; injection H as <- <- <-; split; apply Z16; try reflexivity.
  unfold msi_rw. cbn [Z.eqb]. destruct (negb _); reflexivity.
Qed.
Lemma masks_header_ext c a b e : is_ext (c_kind c) = true -> cap_masks c = Some (a, b, e) -> a 0 = 0 /\ b 0 = 0.
Proof.
  unfold cap_masks. intros X H. destruct (c_kind c); try discriminate X; try discriminate H; injection H as <- <- <-; split; reflexivity.
Qed.
Lemma cap_follow c reg data be r v a b e : 0 <= be < 16 -> cap_read c r = Ok (Some v) -> cap_masks c = Some (a, b, e) ->
  exists v' a' b' e', cap_read (cap_write reg data be c) r = Ok (Some v') /\ cap_masks (cap_write reg data be c) = Some (a', b', e') /\
    a' r = a r /\ b' r = b r /\ e' r = e r /\
    if r =? reg then forall i, 0 <= i -> Z.testbit (e r) i = false -> Z.testbit v' i = upd_bit (a r) (b r) be data v i
    else v' = v.
Proof.
  intros Hbe R M. assert (MS : cap_masks (c_set_attr (c_attr c) c) = Some (a, b, e)) by exact M.
  pose proof (kind_follow c) as K. unfold cap_read in R. unfold cap_read. cbn [cap_write c_set_attr c_kind c_next c_ver c_id c_attr].
  destruct (is_ext (c_kind c)) eqn:X.
  - destruct (Z.eqb_spec r 0) as [->|NZ].
    + apply OkSome_inj in R. subst v. destruct (masks_header_ext _ _ _ _ X M) as [A0 B0].
      assert (exists a' b' e', cap_masks (cap_write reg data be c) = Some (a', b', e') /\ a' 0 = a 0 /\ b' 0 = b 0 /\ e' 0 = e 0) as (a' & b' & e' & E1 & E2 & E3 & E4).
      { clear -X M. unfold cap_masks, cap_write in *. cbn [c_set_attr c_kind c_attr]. destruct (c_kind c); try discriminate X; try discriminate M;
        injection M as <- <- <-; do 3 eexists; repeat split. }
      do 4 eexists. split; [reflexivity|]. split; [exact E1|]. rewrite E2, E3, E4, A0, B0. repeat (split; [reflexivity|]).
      destruct (0 =? reg); [|reflexivity]. intros. rewrite upd_none. reflexivity.
    + injection R as R. destruct (K reg data be r v a b e Hbe R MS) as (v' & a' & b' & e' & K1 & K2).
      exists v', a', b', e'. split; [rewrite K1; reflexivity|exact K2].
  - destruct (Z.eqb_spec r 0) as [->|NZ].
    + destruct (kind_read (c_kind c) (c_attr c) 0) as [v0|] eqn:R0; [|discriminate R]. apply OkSome_inj in R.
      destruct (K reg data be 0 v0 a b e Hbe R0 MS) as (v' & a' & b' & e' & K1 & K2 & K3 & K4 & K5 & K6).
      rewrite K1. do 4 eexists. split; [reflexivity|]. split; [exact K2|]. split; [exact K3|]. split; [exact K4|]. split; [exact K5|].
      fold (header v0 (c_next c) (c_id c)) in R. fold (header v' (c_next c) (c_id c)). subst v.
      destruct (0 =? reg); [|rewrite K6; reflexivity]. intros i Hi Hx. rewrite header_bit by lia. destruct (Z.ltb_spec i 16).
      * destruct (masks_header _ _ _ _ i M ltac:(lia)) as [A B]. rewrite upd_off by assumption. rewrite (header_bit v0) by lia.
        replace (i <? 16) with true by lia. reflexivity.
      * destruct (Z.ltb_spec i 32).
        -- cbn [andb]. rewrite K6 by assumption. apply upd_old. rewrite header_bit by lia.
           replace (i <? 16) with false by lia. replace (i <? 32) with true by lia. reflexivity.
        -- rewrite upd_far by assumption. rewrite header_bit by lia.
           replace (i <? 16) with false by lia. replace (i <? 32) with false by lia. reflexivity.
    + injection R as R. destruct (K reg data be r v a b e Hbe R MS) as (v' & a' & b' & e' & K1 & K2).
      exists v', a', b', e'. split; [rewrite K1; reflexivity|exact K2].
Qed.

(** ** Registers from 16 on *)
Lemma space_high rd wr f reg data mask : In (rd, wr) spaces ->
  (forall r, 1024 <= r -> rd f r = Ok (Some 0)) /\
  (reg < 16 \/ 1024 <= reg -> f_heap (wr reg data mask f) = f_heap f) /\
  (16 <= reg -> f_attr (wr reg data mask f) = f_attr f).
Proof.
  intros W.
  assert (FR : (forall r, 1024 <= r -> fn_read f r = Ok (Some 0)) /\
    (reg < 16 \/ 1024 <= reg -> f_heap (fn_write reg data mask f) = f_heap f) /\
    (16 <= reg -> f_attr (fn_write reg data mask f) = f_attr f)).
  { split; [|split].
    - intros r H. unfold fn_read.
      replace (r =? 0) with false by lia. replace (r =? 1) with false by lia. replace (r =? 2) with false by lia.
      replace (r =? 3) with false by lia. replace (r =? 13) with false by lia. replace (r =? 15) with false by lia.
      replace ((0x10 <=? r) && (r <? 0x40)) with false by lia. replace ((0x40 <=? r) && (r <? 0x400)) with false by lia. reflexivity.
    - intros H. unfold fn_write. destruct (reg =? 1); [reflexivity|]. destruct (reg =? 3); [reflexivity|]. destruct (reg =? 15); [reflexivity|].
      replace ((0x10 <=? reg) && (reg <? 0x40)) with false by lia. replace ((0x40 <=? reg) && (reg <? 0x400)) with false by lia. reflexivity.
    - intros H. unfold fn_write. replace (reg =? 1) with false by lia. replace (reg =? 3) with false by lia. replace (reg =? 15) with false by lia.
      destruct (_ && _); [reflexivity|]. destruct (_ && _); reflexivity. }
  destruct FR as (F1 & F2 & F3).
  destruct W as [E|[E|[E|[]]]]; injection E as <- <-; [auto| |].
  - split; [|split].
    + intros r H. unfold ep_read. repeat match goal with |- context [if r =? ?k then _ else _] => replace (r =? k) with false by lia end. auto.
    + intros H. unfold ep_write. repeat match goal with |- context [if reg =? ?k then _ else _] => destruct (reg =? k); [reflexivity|] end. auto.
    + intros H. unfold ep_write. repeat match goal with |- context [if reg =? ?k then _ else _] => replace (reg =? k) with false by lia end. auto.
  - split; [|split].
    + intros r H. unfold br_read. repeat match goal with |- context [if r =? ?k then _ else _] => replace (r =? k) with false by lia end. auto.
    + intros H. rewrite br_write_eq. unfold br_write_alt. repeat match goal with |- context [if reg =? ?k then _ else _] => destruct (reg =? k); [reflexivity|] end. auto.
    + intros H. rewrite br_write_eq. unfold br_write_alt. repeat match goal with |- context [if reg =? ?k then _ else _] => replace (reg =? k) with false by lia end. auto.
Qed.
Lemma find_pos h h' l r : (forall j, off (h' j) = off (h j) /\ c_len (h' j) = c_len (h j)) -> find_by_reg h' l r = find_by_reg h l r.
Proof.
  intros H. unfold find_by_reg. induction l as [|i l IH]; [reflexivity|]. cbn [find]. destruct (H i) as [-> ->].
  destruct (_ && _); [reflexivity|exact IH].
Qed.
Lemma owner_wr rd wr f reg data mask r : In (rd, wr) spaces -> owner (wr reg data mask f) r = owner f r.
Proof.
  intros W. destruct (spaces_keep _ _ W reg data mask f) as (A & B & _ & C). unfold owner. rewrite A, B.
  assert (D : forall j, off (f_heap (wr reg data mask f) j) = off (f_heap f j) /\ c_len (f_heap (wr reg data mask f) j) = c_len (f_heap f j)).
  { intros j. apply pos_dims. apply C. }
  rewrite !(find_pos (f_heap f) (f_heap (wr reg data mask f))) by exact D. reflexivity.
Qed.
(** A write as seen by one object. *)
Lemma heap_wr rd wr f reg data mask i : In (rd, wr) spaces ->
  f_heap (wr reg data mask f) i =
  match owner f reg with
  | Some j => if Nat.eqb i j then cap_write (reg - off (f_heap f j)) data mask (f_heap f j) else f_heap f i
  | None => f_heap f i
  end.
Proof.
  intros W. destruct (space_high rd wr f reg data mask W) as (_ & H & _). destruct (space_write rd wr f reg data mask W) as (H1 & H2).
  unfold owner. destruct ((16 <=? reg) && (reg <? 64)) eqn:E1.
  - rewrite H1 by lia. cbn [with_heap f_heap]. unfold caps_write. destruct (find_by_reg _ _ _); reflexivity.
  - destruct ((64 <=? reg) && (reg <? 1024)) eqn:E2.
    + rewrite H2 by lia. cbn [with_heap f_heap]. unfold caps_write. destruct (find_by_reg _ _ _); reflexivity.
    + rewrite H by lia. reflexivity.
Qed.
Lemma read_high rd wr f r : In (rd, wr) spaces -> 16 <= r ->
  rd f r = match owner f r with Some i => cap_read (f_heap f i) (r - off (f_heap f i)) | None => Ok (Some 0) end.
Proof.
  intros W H. destruct (space_read rd wr f r W) as [H1 H2]. destruct (space_high rd wr f 0 0 0 W) as (H3 & _). unfold owner.
  destruct ((16 <=? r) && (r <? 64)) eqn:E1; [rewrite H1 by lia; reflexivity|].
  destruct ((64 <=? r) && (r <? 1024)) eqn:E2; [rewrite H2 by lia; reflexivity|]. apply H3. lia.
Qed.

Lemma top_follow rd wr rw w1c exc : In (rd, wr) spaces -> low_follow rd wr rw w1c exc ->
  (forall f reg data mask r, rw (f_attr (wr reg data mask f)) r = rw (f_attr f) r /\ w1c (f_attr (wr reg data mask f)) r = w1c (f_attr f) r) ->
  config_follow rd wr (cfg_masks rw w1c exc).
Proof.
  intros W L MK f reg data be r v a b e Hbe R M. unfold cfg_masks in *. destruct (Z.ltb_spec r 16) as [LT|GE].
  - injection M as <- <- <-. destruct (L f reg data be r v Hbe LT R) as (v' & A & B). exists v'. split; [exact A|].
    destruct (MK f reg data be r) as [-> ->]. split; [reflexivity|exact B].
  - rewrite (read_high _ _ _ _ W GE) in R. rewrite (read_high _ _ _ _ W GE), (owner_wr _ _ _ _ _ _ _ W).
    destruct (owner f r) as [i|] eqn:OW.
    + destruct (cap_masks (f_heap f i)) as [[[a0 b0] e0]|] eqn:CM; [|discriminate M]. injection M as <- <- <-.
      destruct (spaces_keep _ _ W reg data be f) as (_ & _ & _ & C). destruct (pos_dims _ _ (proj1 (C i))) as [OF _]. rewrite OF.
      rewrite (heap_wr _ _ _ _ _ _ i W). destruct (owner f reg) as [j|] eqn:OR.
      * destruct (Nat.eqb_spec i j) as [<-|NE].
        -- destruct (cap_follow (f_heap f i) (reg - off (f_heap f i)) data be (r - off (f_heap f i)) v a0 b0 e0 Hbe R CM)
             as (v' & a' & b' & e' & A & B & C1 & C2 & C3 & D).
           exists v'. split; [exact A|]. rewrite B, C1, C2, C3. split; [reflexivity|].
           replace (r =? reg) with (r - off (f_heap f i) =? reg - off (f_heap f i)); [exact D|].
           destruct (Z.eqb_spec r reg); lia.
        -- exists v. split; [exact R|]. rewrite CM. split; [reflexivity|].
           destruct (Z.eqb_spec r reg) as [->|]; [|reflexivity]. rewrite OW in OR. congruence.
      * exists v. split; [exact R|]. rewrite CM. split; [reflexivity|].
        destruct (Z.eqb_spec r reg) as [->|]; [|reflexivity]. congruence.
    + injection M as <- <- <-. exists v. split; [exact R|]. split; [reflexivity|].
      destruct (r =? reg); [|reflexivity]. intros. rewrite upd_none. reflexivity.
Qed.

(** The sizes of BARs and ROM are never written. *)
Definition keeps_masks (wr : Z -> Z -> Z -> fnc -> fnc) : Prop := forall reg data mask f,
  f_attr (wr reg data mask f) fn_expansion_rom_addr_mask = f_attr f fn_expansion_rom_addr_mask /\
  forall i, In i [0; 1; 2; 3; 4; 5] -> f_attr (wr reg data mask f) (fn_bar_mask i) = f_attr f (fn_bar_mask i).
Ltac plain_masks := split; [cbn [with_attr f_attr]; keep_attr |
  let X := fresh in intros ? X; repeat (destruct X as [<-|X]; [cbn [with_attr f_attr]; keep_attr|]); destruct X].
Lemma fn_masks : keeps_masks fn_write.
Proof.
  intros reg data mask f. unfold fn_write.
  destruct (reg =? 1); [plain_masks|]. destruct (reg =? 3); [plain_masks|]. destruct (reg =? 15); [plain_masks|].
  destruct (_ && _); [split; reflexivity|]. destruct (_ && _); split; reflexivity.
Qed.
Lemma ep_masks : keeps_masks ep_write.
Proof.
  intros reg data mask f. unfold ep_write.
  repeat match goal with |- context [if reg =? ?k then _ else _] => destruct (reg =? k); [plain_masks|] end. apply fn_masks.
Qed.
Lemma br_masks : keeps_masks br_write.
Proof.
  intros reg data mask f. rewrite br_write_eq. unfold br_write_alt.
  repeat match goal with |- context [if reg =? ?k then _ else _] => destruct (reg =? k); [plain_masks|] end. apply fn_masks.
Qed.

Lemma fn_follow : config_follow fn_read fn_write (cfg_masks fn_rw fn_w1c (tab [(3, 0x40000000)])).
Proof. apply top_follow; [left; reflexivity|exact fn_low|]. intros. split; reflexivity. Qed.
Lemma ep_follow : config_follow ep_read ep_write (cfg_masks ep_rw ep_w1c (tab [(3, 0x40000000)])).
Proof.
  apply top_follow; [right; left; reflexivity|exact ep_low|]. intros f reg data mask r. split; [|reflexivity].
  destruct (ep_masks reg data mask f) as [A B]. unfold ep_rw, bar_bits, rom_bits. rewrite A, !B by (cbn; tauto). reflexivity.
Qed.
Lemma br_follow : config_follow br_read br_write (cfg_masks br_rw br_w1c (tab [(3, 0x40000000)])).
Proof.
  apply top_follow; [right; right; left; reflexivity|exact br_low|]. intros f reg data mask r. split; [|reflexivity].
  destruct (br_masks reg data mask f) as [A B]. unfold br_rw, bar_bits, rom_bits. rewrite A, !B by (cbn; tauto). reflexivity.
Qed.

(** ** Layouts *)
Ltac fshow rd lay := unfold rd, lay, fn_read, common_layout, rom_layout;
  cbn [Z.eqb Pos.eqb Z.leb Z.ltb Z.compare Pos.compare Pos.compare_cont andb]; eexists; split; [reflexivity|]; shows_solve.
Lemma fn_shows f r : 0 <= r < 16 -> exists v, fn_read f r = Ok (Some v) /\ shows (common_layout r) 0 (f_attr f) v.
Proof.
  intros H. assert (C : In r [0;1;2;3;4;5;6;7;8;9;10;11;12;13;14;15]) by (cbn; lia).
  repeat (destruct C as [<-|C]; [fshow fn_read common_layout|]). destruct C.
Qed.
Lemma ep_shows f r : 0 <= r < 16 -> exists v, ep_read f r = Ok (Some v) /\ shows (ep_layout r) 0 (f_attr f) v.
Proof.
  intros H. assert (C : In r [0;1;2;3;4;5;6;7;8;9;10;11;12;13;14;15]) by (cbn; lia).
  repeat (destruct C as [<-|C]; [first [eexists; split; [reflexivity|apply shows_word; reflexivity]|fshow ep_read ep_layout]|]). destruct C.
Qed.
Lemma shows_word' s a v exc : v = s a -> 0 <= s a < 2 ^ 32 -> shows [Fld 0 32 (Num a)] exc s v.
Proof.
  intros -> B. apply shows_word. change 0xffffffff with (Z.ones 32). rewrite Z.land_ones, Z.mod_small by lia. reflexivity.
Qed.
Lemma br_shows f r : 0 <= r < 16 -> 0 <= f_attr f (fn_bar 0) < 2 ^ 32 -> 0 <= f_attr f (fn_bar 1) < 2 ^ 32 ->
  0 <= f_attr f fn_capabilities_ptr < 256 ->
  exists v, br_read f r = Ok (Some v) /\ shows (br_layout r) 0 (f_attr f) v.
Proof.
  intros H B0 B1 B2. assert (C : In r [0;1;2;3;4;5;6;7;8;9;10;11;12;13;14;15]) by (cbn; lia).
  repeat (destruct C as [<-|C]; [first [eexists; split; [reflexivity|apply shows_word'; [reflexivity|assumption]]|fshow br_read br_layout]|]). destruct C.
Qed.
Lemma msi_shows s r v : msc_read s r = Some v -> shows (msi_layout s r) 0 s v.
Proof.
  unfold msc_read, msi_layout. rewrite <- !zbool_neqb.
  destruct (Z.eqb_spec r 0); [intros E; apply Some_inj in E; subst v; shows_solve|].
  destruct (Z.eqb_spec r 1); [intros E; apply Some_inj in E; subst v; shows_solve|].
  destruct (zbool (s ms_msi_64bit_address_capable)), (zbool (s ms_msi_extended_message_data_capable)), (zbool (s ms_msi_per_vector_mask_capable));
    rewrite ?andb_true_r, ?andb_false_r, ?andb_true_l, ?andb_false_l; cbn iota;
    repeat (lazymatch goal with |- context [if r =? ?k then _ else _] => destruct (r =? k) end);
    intros E; try discriminate E; apply Some_inj in E; subst v; shows_solve.
Qed.
Lemma msix_shows s r v : mxc_read s r = Some v -> shows (msix_layout r) 0 s v.
Proof.
  unfold mxc_read, msix_layout. destruct (r =? 0); [|destruct (r =? 1); [|destruct (r =? 2)]];
    intros E; try discriminate E; apply Some_inj in E; subst v; shows_solve.
Qed.
