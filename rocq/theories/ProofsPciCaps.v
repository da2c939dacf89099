(** The capabilities that the host finds. *)
From Coq Require Import Sorting.Sorted.
From Verif Require Import Base BaseProofs Bits ModelUtils ModelAttrs ModelCaps ModelCapList ModelConfig ModelFunction ModelHost ModelPci ModelPciCaps
  SpecRegs SpecConfig SpecHost SpecCapList SpecCapFn SpecPciCaps ProofsRegs ProofsCaps ProofsCapList ProofsCapFn ProofsCapWalk ProofsHost.

(** ** Reads of one register *)
Lemma quad (v : Z) : 0 <= v < 2 ^ 32 ->
  v = v mod 256 + 256 * (v / 256 mod 256 + 256 * (v / 65536 mod 256 + 256 * (v / 16777216 mod 256 + 256 * 0))).
Proof. intros H. change (2 ^ 32) with 4294967296 in H. lia. Qed.
Lemma rdiv r k : 0 <= k < 4 -> (4 * r + k) / 4 = r.
Proof. lia. Qed.
Lemma rmod r k : 0 <= k < 4 -> (4 * r + k) mod 4 = k.
Proof. lia. Qed.
Section Reads.
Context (rd : fnc -> Z -> res (option Z)) (wr : Z -> Z -> Z -> fnc -> fnc) (ms : fnc -> Z -> option (Z * Z * Z)) (tg : Z -> Z)
  (crs : option bool) (dev : pcie_id) (W : In (rd, wr, ms) cfg_kinds).
Local Notation cr := (config_read (cfg_deliver rd wr tg) crs dev).
Lemma read_two f r v : at_id dev f -> rd f r = Ok (Some v) -> 0 <= v < 2 ^ 32 ->
  cr (4 * r) 2 f = Ok (with_id dev f, [v mod 256; v / 256 mod 256]).
Proof.
  intros A R B. destruct (host_read rd wr ms tg crs dev (4 * r) 2 f W ltac:(lia) A) as (d & E & L & N).
  { intros r' H. replace r' with r by lia. exists v. split; assumption. }
  rewrite E. change (2 =? 0) with false. cbv iota. do 2 f_equal.
  destruct d as [|x [|y [|z d]]]; unfold zlen in L; cbn [length] in L; try lia.
  pose proof (N 0 ltac:(lia)) as N0. pose proof (N 1 ltac:(lia)) as N1. unfold cfg_byte in N0, N1.
  rewrite (rdiv r 0) in N0 by lia. rewrite (rdiv r 1) in N1 by lia. rewrite R in N0, N1.
  rewrite (rmod r 0) in N0 by lia. rewrite (rmod r 1) in N1 by lia.
  change (8 * 0) with 0 in N0. change (8 * 1) with 8 in N1. change (2 ^ 0) with 1 in N0. change (2 ^ 8) with 256 in N1. rewrite Z.div_1_r in N0.
  cbn in N0, N1. injection N0 as <-. injection N1 as <-. reflexivity.
Qed.
Lemma read_four f r v : at_id dev f -> rd f r = Ok (Some v) -> 0 <= v < 2 ^ 32 ->
  cfg_read_dword cr (4 * r) f = Ok (with_id dev f, v).
Proof.
  intros A R B. destruct (host_read rd wr ms tg crs dev (4 * r) 4 f W ltac:(lia) A) as (d & E & L & N).
  { intros r' H. replace r' with r by lia. exists v. split; assumption. }
  unfold cfg_read_dword. rewrite E. change (4 =? 0) with false. cbn [bind]. do 2 f_equal.
  destruct d as [|x [|y [|z [|u [|w d]]]]]; unfold zlen in L; cbn [length] in L; try lia.
  pose proof (N 0 ltac:(lia)) as N0. pose proof (N 1 ltac:(lia)) as N1. pose proof (N 2 ltac:(lia)) as N2. pose proof (N 3 ltac:(lia)) as N3.
  unfold cfg_byte in N0, N1, N2, N3.
  rewrite (rdiv r 0) in N0 by lia. rewrite (rdiv r 1) in N1 by lia.
  rewrite (rdiv r 2) in N2 by lia. rewrite (rdiv r 3) in N3 by lia. rewrite R in N0, N1, N2, N3.
  rewrite (rmod r 0) in N0 by lia. rewrite (rmod r 1) in N1 by lia.
  rewrite (rmod r 2) in N2 by lia. rewrite (rmod r 3) in N3 by lia.
  change (2 ^ (8 * 0)) with 1 in N0. change (2 ^ (8 * 1)) with 256 in N1. change (2 ^ (8 * 2)) with 65536 in N2. change (2 ^ (8 * 3)) with 16777216 in N3.
  rewrite Z.div_1_r in N0. cbn [nth Z.to_nat Pos.to_nat Pos.iter_op Init.Nat.add] in N0, N1, N2, N3.
  injection N0 as <-. injection N1 as <-. injection N2 as <-. injection N3 as <-. cbn [from_le]. symmetry. exact (quad v B).
Qed.
Lemma read_high f r v : at_id dev f -> rd f r = Ok (Some v) -> 0 <= v < 2 ^ 32 ->
  cr (4 * r + 2) 2 f = Ok (with_id dev f, [v / 65536 mod 256; v / 16777216 mod 256]).
Proof.
  intros A R B. destruct (host_read rd wr ms tg crs dev (4 * r + 2) 2 f W ltac:(lia) A) as (d & E & L & N).
  { intros r' H. replace r' with r by lia. exists v. split; assumption. }
  rewrite E. change (2 =? 0) with false. cbv iota. do 2 f_equal.
  destruct d as [|x [|y [|z d]]]; unfold zlen in L; cbn [length] in L; try lia.
  pose proof (N 0 ltac:(lia)) as N0. pose proof (N 1 ltac:(lia)) as N1. unfold cfg_byte in N0, N1.
  rewrite <- !Z.add_assoc in N0, N1. change (2 + 0) with 2 in N0. change (2 + 1) with 3 in N1.
  rewrite (rdiv r 2), (rmod r 2), R in N0 by lia. rewrite (rdiv r 3), (rmod r 3), R in N1 by lia.
  change (2 ^ (8 * 2)) with 65536 in N0. change (2 ^ (8 * 3)) with 16777216 in N1.
  cbn in N0, N1. injection N0 as <-. injection N1 as <-. reflexivity.
Qed.
Lemma read_one f r v : at_id dev f -> rd f r = Ok (Some v) -> 0 <= v < 2 ^ 32 ->
  cfg_read_byte cr (4 * r) f = Ok (with_id dev f, v mod 256).
Proof.
  intros A R B. destruct (host_read rd wr ms tg crs dev (4 * r) 1 f W ltac:(lia) A) as (d & E & L & N).
  { intros r' H. replace r' with r by lia. exists v. split; assumption. }
  unfold cfg_read_byte. rewrite E. change (1 =? 0) with false. cbn [bind].
  destruct d as [|x [|y d]]; unfold zlen in L; cbn [length] in L; try lia.
  pose proof (N 0 ltac:(lia)) as N0. unfold cfg_byte in N0.
  rewrite (rdiv r 0) in N0 by lia. rewrite R in N0. rewrite (rmod r 0) in N0 by lia.
  change (2 ^ (8 * 0)) with 1 in N0. rewrite Z.div_1_r in N0. cbn in N0. injection N0 as <-. reflexivity.
Qed.

(** ** The walks *)
Lemma at_own f : at_id dev (with_id dev f).
Proof. split; reflexivity. Qed.
Lemma walk_list_ok h : forall l fuel acc f, chained h l -> at_id dev f -> (length l < fuel)%nat ->
  (forall i, In i l -> 16 <= off (h i) < 64 /\ exists v, rd f (off (h i)) = Ok (Some v) /\ 0 <= v < 2 ^ 32 /\
     v mod 256 = c_id (h i) mod 256 /\ v / 256 mod 256 = c_next (h i)) ->
  walk_list cr fuel (match l with i :: _ => off (h i) * 4 | [] => 0 end) acc f =
  Ok (match l with [] => f | _ => with_id dev f end, acc ++ map (fun i => (c_id (h i) mod 256, 4 * off (h i))) l).
Proof.
  induction l as [|i l IH]; intros fuel acc f C A F H; (destruct fuel as [|fuel]; [cbn in F; lia|]).
  - cbn. rewrite app_nil_r. reflexivity.
  - destruct (H i (or_introl eq_refl)) as (P & v & R & V & V1 & V2). cbn [walk_list].
    replace (off (h i) * 4 >? 0) with true by lia. replace (off (h i) * 4) with (4 * off (h i)) by lia.
    rewrite (read_two f _ v A R V). cbn [bind].
    assert (C' : c_next (h i) = match l with j :: _ => off (h j) * 4 | [] => 0 end /\ chained h l).
    { destruct l as [|j l]; cbn in C; [split; [exact C|exact Logic.I]|exact C]. }
    destruct C' as [C1 C2].
    assert (M : Z.land (v / 256 mod 256) 0xfc = match l with j :: _ => off (h j) * 4 | [] => 0 end).
    { rewrite V2, C1. destruct l as [|j l]; [reflexivity|]. destruct (H j (or_intror (or_introl eq_refl))) as (Pj & _).
      generalize dependent (off (h j)). intros o _ _ Po. assert (Q : 0 <= o < 64) by lia. clear -Q.
      replace (o * 4) with (Z.shiftl o 2) by (rewrite Z.shiftl_mul_pow2 by lia; reflexivity). bits. }
    rewrite M, (IH fuel _ (with_id dev f) C2 (at_own f) ltac:(cbn in F; lia)).
    + rewrite V1. cbn [map]. rewrite <- app_assoc. destruct l; reflexivity.
    + intros j J. destruct (H j (or_intror J)) as (P1 & w & R1 & X). split; [exact P1|]. exists w.
      rewrite (proj1 (kinds_id _ _ _ W dev f _)). split; assumption.
Qed.
Lemma walk_ext_list_ok h : forall l fuel acc f, chained h l -> at_id dev f -> (length l < fuel)%nat -> l <> [] ->
  (forall i, In i l -> 64 <= off (h i) < 1024 /\ c_id (h i) mod 65536 <> 0 /\ exists v, rd f (off (h i)) = Ok (Some v) /\ 0 <= v < 2 ^ 32 /\
     v mod 65536 = c_id (h i) mod 65536 /\ v / 1048576 = c_next (h i)) ->
  walk_ext_list cr fuel (match l with i :: _ => off (h i) * 4 | [] => 0 end) acc f =
  Ok (with_id dev f, acc ++ map (fun i => (c_id (h i) mod 65536, 4 * off (h i))) l).
Proof.
  induction l as [|i l IH]; intros fuel acc f C A F NE H; [congruence|]. destruct fuel as [|fuel]; [cbn in F; lia|].
  destruct (H i (or_introl eq_refl)) as (P & Z0 & v & R & V & V1 & V2). cbn [walk_ext_list].
  replace (off (h i) * 4 >? 0) with true by lia. replace (off (h i) * 4) with (4 * off (h i)) by lia.
  rewrite (read_four f _ v A R V). cbn [bind].
  assert (C' : c_next (h i) = match l with j :: _ => off (h j) * 4 | [] => 0 end /\ chained h l).
  { destruct l as [|j l]; cbn in C; [split; [exact C|exact Logic.I]|exact C]. }
  destruct C' as [C1 C2].
  assert (N4 : c_next (h i) mod 4 = 0) by (rewrite C1; destruct l; lia).
  replace (v =? 0) with false by (destruct (Z.eqb_spec v 0); [subst v; exfalso; apply Z0; rewrite <- V1; reflexivity|reflexivity]).
  replace (v =? 0xffffffff) with false by (destruct (Z.eqb_spec v 0xffffffff); [subst v; exfalso; rewrite <- V2 in N4; discriminate N4|reflexivity]).
  cbn [orb].
  assert (M : Z.land (Z.shiftr v 20) 0xffc = match l with j :: _ => off (h j) * 4 | [] => 0 end).
  { rewrite Z.shiftr_div_pow2 by lia. change (2 ^ 20) with 1048576. rewrite V2, C1. destruct l as [|j l]; [reflexivity|].
    destruct (H j (or_intror (or_introl eq_refl))) as (Pj & _). generalize dependent (off (h j)). intros o _ _ Po. assert (Q : 0 <= o < 1024) by lia. clear -Q.
    replace (o * 4) with (Z.shiftl o 2) by (rewrite Z.shiftl_mul_pow2 by lia; reflexivity). bits. }
  assert (M2 : Z.land v 0xffff = c_id (h i) mod 65536) by (change 0xffff with (Z.ones 16); rewrite Z.land_ones by lia; exact V1).
  rewrite M, M2. destruct l as [|j l].
  - destruct fuel; [cbn in F; lia|]. reflexivity.
  - rewrite (IH fuel _ (with_id dev f) C2 (at_own f) ltac:(cbn in F |- *; lia) ltac:(discriminate)).
    + cbn [map]. rewrite <- app_assoc. reflexivity.
    + intros j' J. destruct (H j' (or_intror J)) as (P1 & Z1 & w & R1 & X). split; [exact P1|]. split; [exact Z1|]. exists w.
      rewrite (proj1 (kinds_id _ _ _ W dev f _)). split; assumption.
Qed.
End Reads.

(** ** The headers *)
Lemma mask_ptr o : 0 <= o < 64 -> Z.land (o * 4) 0xfc = o * 4.
Proof. intros H. replace (o * 4) with (Z.shiftl o 2) by (rewrite Z.shiftl_mul_pow2 by lia; reflexivity). bits. Qed.
Lemma legacy_head v n i : 0 <= n < 256 ->
  let x := Z.lor (Z.lor (Z.land v 0xffff0000) (Z.shiftl (Z.land n 0xff) 8)) (Z.land i 0xff) in
  0 <= x < 2 ^ 32 /\ x mod 256 = i mod 256 /\ x / 256 mod 256 = n.
Proof.
  intros H x.
  assert (X1 : Z.land x 255 = Z.land i 255) by (unfold x; bits).
  assert (X2 : Z.land (Z.shiftr x 8) 255 = n) by (unfold x; bits).
  assert (X3 : Z.land x 0xffffffff = x) by (unfold x; bits).
  split; [rewrite <- X3; change 0xffffffff with (Z.ones 32); rewrite Z.land_ones by lia; apply Z.mod_pos_bound; lia|].
  change 255 with (Z.ones 8) in X1, X2. rewrite (Z.land_ones x), (Z.land_ones i) in X1 by lia. rewrite Z.land_ones in X2 by lia. change (2 ^ 8) with 256 in X1, X2.
  split; [exact X1|]. rewrite Z.shiftr_div_pow2 in X2 by lia. exact X2.
Qed.
Lemma ext_head n v i : 0 <= n < 4096 ->
  let x := Z.lor (Z.lor (Z.shiftl (Z.land n 0xfff) 20) (Z.shiftl (Z.land v 0xf) 16)) (Z.land i 0xffff) in
  0 <= x < 2 ^ 32 /\ x mod 65536 = i mod 65536 /\ x / 1048576 = n.
Proof.
  intros H x.
  assert (X1 : Z.land x 0xffff = Z.land i 0xffff) by (unfold x; bits).
  assert (X2 : Z.shiftr x 20 = n) by (unfold x; bits).
  assert (X3 : Z.land x 0xffffffff = x) by (unfold x; bits).
  split; [rewrite <- X3; change 0xffffffff with (Z.ones 32); rewrite Z.land_ones by lia; apply Z.mod_pos_bound; lia|].
  change 0xffff with (Z.ones 16) in X1. rewrite (Z.land_ones x), (Z.land_ones i) in X1 by lia.
  split; [exact X1|]. rewrite Z.shiftr_div_pow2 in X2 by lia. exact X2.
Qed.

(** ** The capabilities of a function *)
Lemma walk_found rd wr ms tg crs dev f : In (rd, wr, ms) cfg_kinds -> at_id dev f ->
  chained (f_heap f) (f_caps f) -> chained (f_heap f) (f_ecaps f) ->
  f_attr f fn_capabilities_ptr = head_ptr f -> disjoint (f_heap f) (f_caps f) -> disjoint (f_heap f) (f_ecaps f) ->
  (forall i, In i (f_caps f) -> 16 <= off (f_heap f i) < 64 /\ 0 < c_len (f_heap f i) /\
     is_ext (c_kind (f_heap f i)) = false /\ headed (f_heap f i)) ->
  (forall i, hd_error (f_ecaps f) = Some i -> off (f_heap f i) = 64) ->
  (forall i, In i (f_ecaps f) -> 64 <= off (f_heap f i) < 1024 /\ 0 < c_len (f_heap f i) /\
     is_ext (c_kind (f_heap f i)) = true /\ c_id (f_heap f i) mod 65536 <> 0) ->
  forall fuel, (length (f_caps f) < fuel)%nat -> (length (f_ecaps f) < fuel)%nat ->
  walk_capabilities (config_read (cfg_deliver rd wr tg) crs dev) fuel f = Ok (with_id dev f, listing f).
Proof.
  intros W A C CX P D DX H H1 HX fuel F1 F2. pose proof (kinds_spaces _ _ _ W) as SP.
  assert (B : forall i, In i (f_caps f) -> 0 <= c_next (f_heap f i) < 256).
  { apply chained_bound; [exact C|intros i Hi; specialize (H i Hi); lia|lia]. }
  assert (BX : forall i, In i (f_ecaps f) -> 0 <= c_next (f_heap f i) < 4096).
  { apply chained_bound; [exact CX|intros i Hi; specialize (HX i Hi); lia|lia]. }
  assert (HB : 0 <= head_ptr f < 256).
  { unfold head_ptr. destruct (f_caps f) as [|i l]; [lia|]. specialize (H i (or_introl eq_refl)). lia. }
  assert (R : rd f 13 = Ok (Some (head_ptr f))).
  { assert (L : Z.land (head_ptr f) 0xff = head_ptr f) by (change 0xff with (Z.ones 8); rewrite Z.land_ones by lia; apply Z.mod_small; exact HB).
    destruct W as [E|[E|[E|[]]]]; injection E as <- <- <-.
    - change (fn_read f 13) with (@Ok (option Z) (Some (Z.land (f_attr f fn_capabilities_ptr) 0xff))). rewrite P, L. reflexivity.
    - change (ep_read f 13) with (@Ok (option Z) (Some (Z.land (f_attr f fn_capabilities_ptr) 0xff))). rewrite P, L. reflexivity.
    - change (br_read f 13) with (@Ok (option Z) (Some (f_attr f fn_capabilities_ptr))). rewrite P. reflexivity. }
  unfold walk_capabilities. change 0x34 with (4 * 13).
  rewrite (read_one rd wr ms tg crs dev W f 13 (head_ptr f) A R ltac:(lia)). cbn [bind].
  assert (M : Z.land (head_ptr f mod 256) 0xfc = head_ptr f).
  { rewrite Z.mod_small by exact HB. unfold head_ptr in *. destruct (f_caps f) as [|i l]; [reflexivity|].
    apply mask_ptr. specialize (H i (or_introl eq_refl)). lia. }
  rewrite M. unfold head_ptr at 1.
  assert (WI : forall r, rd (with_id dev f) r = rd f r) by (intros r; exact (proj1 (kinds_id _ _ _ W dev f r))).
  rewrite (walk_list_ok rd wr ms tg crs dev W (f_heap f) (f_caps f) fuel [] (with_id dev f) C (at_own dev f) F1).
  2:{ intros i Hi. destruct (H i Hi) as (Q1 & Q2 & Q3 & Q4). split; [exact Q1|]. rewrite WI, (proj1 (space_read _ _ _ _ SP) Q1).
      assert (E : caps_read (f_heap f) (f_caps f) (off (f_heap f i)) = cap_read (f_heap f i) 0).
      { rewrite <- (owner_read (f_heap f) (f_caps f)) by (auto; lia). f_equal. lia. }
      rewrite E. unfold cap_read. rewrite Q3. change (0 =? 0) with true. cbv iota.
      destruct Q4 as [Q4|Q4]; [congruence|]. specialize (Q4 (c_attr (f_heap f i))).
      destruct (kind_read (c_kind (f_heap f i)) (c_attr (f_heap f i)) 0) as [v|]; [|congruence].
      eexists. split; [reflexivity|]. apply legacy_head. apply B. exact Hi. }
  cbn [bind app].
  assert (G : walk_ext_list (config_read (cfg_deliver rd wr tg) crs dev) fuel 0x100 [] (with_id dev f) = Ok (with_id dev f, entries true f)).
  { unfold entries. cbn [caps_of]. destruct (f_ecaps f) as [|k l] eqn:EL.
    - destruct fuel as [|fuel]; [cbn in F2; lia|]. cbn [walk_ext_list]. change (0x100 >? 0) with true. cbv iota. change 0x100 with (4 * 64).
      rewrite (read_four rd wr ms tg crs dev W (with_id dev f) 64 0 (at_own dev f)).
      + reflexivity.
      + rewrite WI, (proj2 (space_read _ _ _ _ SP)) by lia. rewrite EL. reflexivity.
      + lia.
    - replace 0x100 with (off (f_heap f k) * 4) by (rewrite (H1 k eq_refl); reflexivity).
      apply (walk_ext_list_ok rd wr ms tg crs dev W (f_heap f) (k :: l) fuel [] (with_id dev f) CX (at_own dev f) F2); [discriminate|].
      intros i Hi. destruct (HX i Hi) as (Q1 & Q2 & Q3 & Q4). split; [exact Q1|]. split; [exact Q4|].
      rewrite WI, (proj2 (space_read _ _ _ _ SP) Q1). rewrite EL.
      assert (E : caps_read (f_heap f) (k :: l) (off (f_heap f i)) = cap_read (f_heap f i) 0).
      { rewrite <- (owner_read (f_heap f) (k :: l)) by (auto; lia). f_equal. lia. }
      rewrite E. unfold cap_read. rewrite Q3. change (0 =? 0) with true. cbv iota.
      eexists. split; [reflexivity|]. apply ext_head. apply BX. exact Hi. }
  replace (match f_caps f with [] => with_id dev f | _ :: _ => with_id dev (with_id dev f) end) with (with_id dev f) by (destruct (f_caps f); reflexivity).
  rewrite G. reflexivity.
Qed.
Lemma walk_orderly rd wr ms tg crs dev f0 ops f : In (rd, wr, ms) cfg_kinds -> fresh f0 -> typed f0 ops -> frun wr ops f0 = Ok f ->
  at_id dev f -> orderly wr f0 ops f ->
  forall fuel, (length (f_caps f) < fuel)%nat -> (length (f_ecaps f) < fuel)%nat ->
  walk_capabilities (config_read (cfg_deliver rd wr tg) crs dev) fuel f = Ok (with_id dev f, listing f).
Proof.
  intros W Fr T E A [O1 O2 O3 O4 O5 O6 O7]. pose proof (kinds_spaces _ _ _ W) as SP.
  destruct (caps_no_dereg _ _ _ _ _ false SP Fr T E (O3 false)) as [C P].
  destruct (caps_no_dereg _ _ _ _ _ true SP Fr T E (O3 true)) as [CX _].
  assert (LO : forall i, In i (f_ecaps f) -> 64 <= off (f_heap f i)).
  { pose proof (caps_sorted _ _ _ _ _ true SP Fr T E) as S1. cbn [caps_of] in S1. destruct (f_ecaps f) as [|k l]; [intros i []|].
    specialize (O5 k eq_refl). inversion S1 as [|x y S2 F1]; subst. rewrite Forall_forall in F1.
    intros i [<-|Hi]; [lia|]. specialize (F1 i Hi). lia. }
  apply (walk_found rd wr ms); auto.
  - exact (caps_disjoint _ _ _ _ _ false SP Fr T E (O4 false)).
  - exact (caps_disjoint _ _ _ _ _ true SP Fr T E (O4 true)).
  - intros i Hi. destruct (caps_static _ _ _ _ _ i SP Fr T E) as (K1 & _ & _ & K2).
    split; [apply O6; exact Hi|]. split; [rewrite K2; apply Fr|]. split; [exact (caps_class _ _ _ _ _ false i SP Fr T E Hi)|].
    specialize (O1 i). unfold headed in *. rewrite K1. exact O1.
  - intros i Hi. destruct (caps_static _ _ _ _ _ i SP Fr T E) as (_ & K1 & _ & K2). specialize (LO i Hi). specialize (O7 i Hi).
    rewrite K1, K2. split; [lia|]. split; [apply Fr|]. split; [exact (caps_class _ _ _ _ _ true i SP Fr T E Hi)|apply O2].
Qed.
Lemma auto_orderly rd wr ms f0 ops f : In (rd, wr, ms) cfg_kinds -> fresh f0 -> typed f0 ops -> frun wr ops f0 = Ok f ->
  (forall i, 2 <= c_len (f_heap f0 i) /\ headed (f_heap f0 i) /\ c_id (f_heap f0 i) mod 65536 <> 0) ->
  (forall ext, auto_only ext ops) ->
  (forall ext : bool, total (map (fun i => c_len (f_heap f i)) (caps_of ext f)) <= if ext then 960 else 48) ->
  orderly wr f0 ops f.
Proof.
  intros W Fr T E H AO L. pose proof (kinds_spaces _ _ _ W) as SP.
  pose proof (fun ext => auto_only_fits _ _ _ _ _ ext SP Fr (fun i => proj1 (H i)) T E (AO ext)) as FA.
  pose proof (fun ext => caps_auto _ _ _ _ _ ext SP Fr (fun i => proj1 (H i)) T E (AO ext)) as CA.
  constructor.
  - intros i. apply H.
  - intros i. apply H.
  - intros ext. apply AO.
  - intros ext. apply FA.
  - intros i Hi. destruct (CA true) as (_ & P & _). cbn [caps_of caps_start] in P. destruct (f_ecaps f) as [|k l]; [discriminate|].
    cbn in Hi. injection Hi as ->. cbn in P. injection P as P _. exact P.
  - intros i Hi. destruct (CA false) as (_ & _ & R). specialize (R i Hi). specialize (L false). cbn [caps_of caps_start] in *. lia.
  - intros i Hi. destruct (CA true) as (_ & _ & R). specialize (R i Hi). specialize (L true). cbn [caps_of caps_start] in *. lia.
Qed.

(** ** Lookups *)
Lemma lookup_first (ident : nat -> Z) (h : heap) id l : StronglySorted (fun i j => off (h i) <= off (h j)) l ->
  match lookup id (map (fun i => (ident i, 4 * off (h i))) l) with
  | Some o => exists i, In i l /\ ident i = id /\ o = 4 * off (h i) /\ forall j, In j l -> ident j = id -> off (h i) <= off (h j)
  | None => forall i, In i l -> ident i <> id
  end.
Proof.
  unfold lookup. induction l as [|k l IH]; intros Q; [intros i []|]. inversion Q as [|x y Q1 Q2]; subst. rewrite Forall_forall in Q2.
  cbn [map find fst]. destruct (Z.eqb_spec (ident k) id) as [E|E].
  - cbn. exists k. split; [left; reflexivity|]. split; [exact E|]. split; [reflexivity|]. intros j [<-|J] _; [lia|]. apply Q2. exact J.
  - specialize (IH Q1). destruct (option_map snd _) as [o|].
    + destruct IH as (i & I1 & I2 & I3 & I4). exists i. split; [right; exact I1|]. split; [exact I2|]. split; [exact I3|].
      intros j [<-|J] EJ; [congruence|]. apply I4; assumption.
    + intros i [<-|J]; [exact E|]. apply IH. exact J.
Qed.
Lemma found_first rd wr f0 ops f ext id : In (rd, wr) spaces -> fresh f0 -> typed f0 ops -> frun wr ops f0 = Ok f ->
  match get_capability_offset (key ext id) (listing f) with
  | Some o => exists i, In i (caps_of ext f) /\ cap_ident ext (f_heap f i) = id /\ o = 4 * off (f_heap f i) /\
      forall j, In j (caps_of ext f) -> cap_ident ext (f_heap f j) = id -> off (f_heap f i) <= off (f_heap f j)
  | None => forall i, In i (caps_of ext f) -> cap_ident ext (f_heap f i) <> id
  end.
Proof.
  intros W Fr T E. pose proof (caps_sorted _ _ _ _ _ ext W Fr T E) as Q.
  assert (G : get_capability_offset (key ext id) (listing f) = lookup id (entries ext f)) by (destruct ext; reflexivity).
  rewrite G. unfold entries. exact (lookup_first (fun i => cap_ident ext (f_heap f i)) (f_heap f) id _ Q).
Qed.

(** ** Accesses to the registers of a capability *)
Lemma found_offset k p o : get_capability_offset k p = Some (4 * o) -> 0 < o -> cap_offset k p = Ok (4 * o).
Proof. intros E H. unfold cap_offset. rewrite E. replace (4 * o =? 0) with false by lia. reflexivity. Qed.
Lemma space_caps rd wr f ext r : In (rd, wr) spaces -> (if ext : bool then 64 <= r < 1024 else 16 <= r < 64) ->
  rd f r = caps_read (f_heap f) (caps_of ext f) r /\
  forall data mask, wr r data mask f = with_heap (caps_write r data mask (caps_of ext f)) f.
Proof.
  intros W H. destruct ext; split; intros; first [exact (proj2 (space_read _ _ _ _ W) H)|exact (proj1 (space_read _ _ _ _ W) H)|
    exact (proj2 (space_write _ _ _ _ _ _ W) H)|exact (proj1 (space_write _ _ _ _ _ _ W) H)].
Qed.
Lemma cap_access_read rd wr ms tg crs dev f ext i k p addr n : In (rd, wr, ms) cfg_kinds -> at_id dev f ->
  disjoint (f_heap f) (caps_of ext f) -> In i (caps_of ext f) -> 0 < off (f_heap f i) ->
  get_capability_offset k p = Some (4 * off (f_heap f i)) -> 0 <= n -> within_cap ext (f_heap f i) addr n ->
  (forall r, addr / 4 <= r <= (addr + n - 1) / 4 -> exists v, cap_read (f_heap f i) r = Ok (Some v) /\ 0 <= v < 2 ^ 32) ->
  exists d, capability_read (config_read (cfg_deliver rd wr tg) crs dev) p k addr n f = Ok (if n =? 0 then f else with_id dev f, d) /\ zlen d = n /\
    forall j, 0 <= j < n -> cap_byte (f_heap f i) (addr + j) = Some (nth (Z.to_nat j) d 0).
Proof.
  intros W A D Hi P G Hn IN RD. pose proof (kinds_spaces _ _ _ W) as SP. unfold capability_read. rewrite (found_offset _ _ _ G P). cbn [bind].
  set (o := off (f_heap f i)) in *.
  assert (R : forall r, addr / 4 <= r <= (addr + n - 1) / 4 -> rd f (o + r) = cap_read (f_heap f i) r).
  { intros r Hr. destruct (IN r Hr) as [I1 I2]. fold o in I2. rewrite (proj1 (space_caps _ _ f ext (o + r) SP I2)).
    apply owner_read; assumption. }
  destruct (host_read rd wr ms tg crs dev (addr + 4 * o) n f W Hn A) as (d & E & L & N).
  { intros r Hr. destruct (RD (r - o)) as (v & V1 & V2); [lia|]. exists v. split; [|exact V2]. rewrite <- V1, <- R by lia. f_equal. lia. }
  exists d. split; [exact E|]. split; [exact L|]. intros j Hj. rewrite <- (N j Hj). unfold cap_byte, cfg_byte.
  replace ((addr + 4 * o + j) / 4) with (o + (addr + j) / 4) by lia. replace ((addr + 4 * o + j) mod 4) with ((addr + j) mod 4) by lia.
  rewrite R by lia. reflexivity.
Qed.

Lemma flat_map_in {A B} (g : A -> list B) l x : In x l -> forall y, In y (g x) -> In y (flat_map g l).
Proof. intros H y Y. apply in_flat_map. exists x. split; assumption. Qed.
Lemma lanes_reg reg data be a x : In (a, x) (lanes (reg, data, be)) -> a / 4 = reg.
Proof.
  unfold lanes. intros H. apply in_flat_map in H. destruct H as (j & J & H). destruct (Z.testbit be j); [|destruct H].
  destruct H as [H|[]]. injection H as <- _. assert (0 <= j < 4) by (cbn in J; lia). apply rdiv. assumption.
Qed.
Definition shift_reg (o : Z) (w : Z * Z * Z) : Z * Z * Z := let '(reg, data, be) := w in (reg - o, data, be).
Lemma lanes_shift o w : lanes (shift_reg o w) = map (fun '(a, x) => (a - 4 * o, x)) (lanes w).
Proof.
  destruct w as [[reg data] be]. unfold shift_reg, lanes. cbn [flat_map].
  destruct (Z.testbit be 0), (Z.testbit be 1), (Z.testbit be 2), (Z.testbit be 3); cbn [app map]; repeat (f_equal; try lia).
Qed.
Lemma write_all_own rd wr ext i c0 : In (rd, wr) spaces -> forall ws f, disjoint (f_heap f) (caps_of ext f) -> In i (caps_of ext f) ->
  off (f_heap f i) = off c0 -> c_len (f_heap f i) = c_len c0 ->
  (forall reg data be, In (reg, data, be) ws -> 0 <= reg - off c0 < c_len c0 /\ (if ext : bool then 64 <= reg < 1024 else 16 <= reg < 64)) ->
  let f' := write_all wr ws f in
  f_attr f' = f_attr f /\ f_caps f' = f_caps f /\ f_ecaps f' = f_ecaps f /\ f_id f' = f_id f /\
  f_heap f' i = cap_write_all (map (shift_reg (off c0)) ws) (f_heap f i) /\ forall j, j <> i -> f_heap f' j = f_heap f j.
Proof.
  intros W. induction ws as [|[[reg data] be] ws IH]; intros f D Hi O L H f'; [unfold f'; cbn; repeat split; reflexivity|].
  destruct (H reg data be (or_introl eq_refl)) as [H1 H2].
  assert (E : wr reg data be f = with_heap (hset i (cap_write (reg - off c0) data be (f_heap f i))) f).
  { rewrite (proj2 (space_caps _ _ f ext reg W H2)). unfold with_heap.
    pose proof (owner_write (f_heap f) (caps_of ext f) i (reg - off c0) data be D Hi ltac:(rewrite L; exact H1)) as OW.
    rewrite O in OW. replace (off c0 + (reg - off c0)) with reg in OW by lia. rewrite OW. reflexivity. }
  unfold f', write_all. cbn [fold_left]. rewrite E. set (f1 := with_heap _ f).
  assert (S1 : forall j, off (f_heap f1 j) = off (f_heap f j) /\ c_len (f_heap f1 j) = c_len (f_heap f j)).
  { intros j. unfold f1, with_heap. cbn. unfold hset. destruct (Nat.eqb_spec j i) as [->|]; split; reflexivity. }
  assert (CO : caps_of ext f1 = caps_of ext f) by (destruct ext; reflexivity).
  destruct (IH f1) as (A1 & A2 & A3 & A4 & A5 & A6).
  - rewrite CO. intros a b Ha Hb N. unfold apart. destruct (S1 a) as [-> ->], (S1 b) as [-> ->]. exact (D a b Ha Hb N).
  - rewrite CO. exact Hi.
  - rewrite (proj1 (S1 i)). exact O.
  - rewrite (proj2 (S1 i)). exact L.
  - intros r d b J. apply (H r d b). right. exact J.
  - fold (write_all wr ws f1). rewrite A1, A2, A3, A4, A5. unfold f1, with_heap. cbn [f_attr f_caps f_ecaps f_id f_heap]. repeat split.
    + cbn [map shift_reg cap_write_all fold_left]. unfold hset. rewrite Nat.eqb_refl. reflexivity.
    + intros j N. rewrite A6 by exact N. unfold f1, with_heap. cbn [f_heap]. unfold hset. destruct (Nat.eqb_spec j i); [contradiction|reflexivity].
Qed.
Lemma cap_access_write rd wr ms tg dev f ext i k p addr d : In (rd, wr, ms) cfg_kinds -> at_id dev f ->
  disjoint (f_heap f) (caps_of ext f) -> In i (caps_of ext f) -> 0 < off (f_heap f i) ->
  get_capability_offset k p = Some (4 * off (f_heap f i)) -> bytes_ok d -> d <> [] -> within_cap ext (f_heap f i) addr (zlen d) ->
  exists f' ws, capability_write (config_write (cfg_deliver rd wr tg) dev) p k addr d f = Ok f' /\
    f_attr f' = f_attr f /\ f_caps f' = f_caps f /\ f_ecaps f' = f_ecaps f /\ f_id f' = dev /\
    f_heap f' i = cap_write_all ws (f_heap f i) /\ (forall j, j <> i -> f_heap f' j = f_heap f j) /\
    flat_map lanes ws = map (fun k => (addr + Z.of_nat k, nth k d 0)) (List.seq 0 (length d)) /\ Forall (fun w => lanes w <> []) ws.
Proof.
  intros W A D Hi P G BD ND IN. pose proof (kinds_spaces _ _ _ W) as SP. unfold capability_write. rewrite (found_offset _ _ _ G P). cbn [bind].
  destruct (host_accesses rd wr ms tg dev (addr + 4 * off (f_heap f i)) d f W A BD ND) as (ws & E & L & NE).
  set (c0 := f_heap f i) in *.
  assert (RG : forall reg data be, In (reg, data, be) ws -> 0 <= reg - off c0 < c_len c0 /\ (if ext : bool then 64 <= reg < 1024 else 16 <= reg < 64)).
  { intros reg data be J. rewrite Forall_forall in NE. specialize (NE _ J). destruct (lanes (reg, data, be)) as [|[a x] r] eqn:EL; [congruence|].
    assert (Ia : In (a, x) (lanes (reg, data, be))) by (rewrite EL; left; reflexivity).
    pose proof (flat_map_in lanes ws _ J _ Ia) as Ib. rewrite L in Ib. apply in_map_iff in Ib. destruct Ib as (m & M & Im). apply (f_equal fst) in M. cbn [fst] in M.
    apply in_seq in Im. pose proof (lanes_reg _ _ _ _ _ Ia) as RA. destruct (IN (reg - off c0)) as [I1 I2].
    - unfold zlen. lia.
    - split; [exact I1|]. replace (off c0 + (reg - off c0)) with reg in I2 by lia. exact I2. }
  destruct (write_all_own rd wr ext i c0 SP ws (with_id dev f)) as (B1 & B2 & B3 & B4 & B5 & B6).
  - replace (caps_of ext (with_id dev f)) with (caps_of ext f) by (destruct ext; reflexivity). exact D.
  - replace (caps_of ext (with_id dev f)) with (caps_of ext f) by (destruct ext; reflexivity). exact Hi.
  - reflexivity.
  - reflexivity.
  - exact RG.
  - exists (write_all wr ws (with_id dev f)), (map (shift_reg (off c0)) ws). split; [exact E|]. split; [exact B1|]. split; [exact B2|].
    split; [exact B3|]. split; [exact B4|]. split; [exact B5|]. split; [exact B6|]. split.
    + transitivity (map (fun '(a, x) => (a - 4 * off c0, x)) (flat_map lanes ws)).
      * clear. induction ws as [|w ws IH]; [reflexivity|]. cbn [map flat_map]. rewrite lanes_shift, map_app, IH. reflexivity.
      * rewrite L, map_map. apply map_ext. intros j. f_equal. lia.
    + rewrite Forall_forall in *. intros w Hw. apply in_map_iff in Hw. destruct Hw as (w' & <- & Hw). rewrite lanes_shift. specialize (NE _ Hw).
      destruct (lanes w'); [congruence|discriminate].
Qed.

(** ** What [setup] reads from the PCI Express capability *)
Lemma pec_read_one s : exists v, pec_read s 1 = Some v /\ 0 <= v < 2 ^ 32 /\ Z.land v 7 = s pe_max_payload_size_supported mod 8.
Proof.
  unfold pec_read. change (1 =? 0) with false. change (1 =? 1) with true. cbv iota. eexists. split; [reflexivity|].
  repeat match goal with |- context [Z.b2z ?b] => let x := fresh "b" in let H := fresh "H" in
    set (x := Z.b2z b); assert (H : 0 <= x < 2) by (unfold x; destruct b; cbn; lia); clearbody x end.
  match goal with |- 0 <= ?x < _ /\ _ => set (X := x) end.
  assert (X3 : Z.land X 0xffffffff = X) by (unfold X; bits).
  split; [rewrite <- X3; change 0xffffffff with (Z.ones 32); rewrite Z.land_ones by lia; apply Z.mod_pos_bound; lia|].
  assert (X1 : Z.land X 7 = Z.land (s pe_max_payload_size_supported) 7) by (unfold X; bits).
  rewrite X1. change 7 with (Z.ones 3). rewrite Z.land_ones by lia. reflexivity.
Qed.
Lemma setup_exp rd wr ms tg crs dev f p i : In (rd, wr, ms) cfg_kinds -> at_id dev f ->
  disjoint (f_heap f) (f_caps f) -> In i (f_caps f) -> 16 <= off (f_heap f i) < 63 -> c_kind (f_heap f i) = KPcie -> 2 <= c_len (f_heap f i) ->
  get_capability_offset (CapId 0x10) p = Some (4 * off (f_heap f i)) ->
  setup_pcie (config_read (cfg_deliver rd wr tg) crs dev) p f =
  Ok (with_id dev f, Some (c_attr (f_heap f i) pe_pcie_device_type mod 16, c_attr (f_heap f i) pe_max_payload_size_supported mod 8)).
Proof.
  intros W A D Hi O K L G. pose proof (kinds_spaces _ _ _ W) as SP. unfold setup_pcie. rewrite G.
  replace (4 * off (f_heap f i) =? 0) with false by lia. unfold cap_read_word, cap_read_dword, capability_read.
  rewrite (found_offset _ _ _ G ltac:(lia)). cbn [bind].
  set (o := off (f_heap f i)) in *. set (s := c_attr (f_heap f i)) in *.
  assert (R : forall g r, g = f \/ g = with_id dev f -> 0 <= r < 2 -> rd g (o + r) = cap_read (f_heap f i) r).
  { intros g r Hg Hr. assert (rd g (o + r) = rd f (o + r)) as -> by (destruct Hg as [->| ->]; [reflexivity|exact (proj1 (kinds_id _ _ _ W dev f _))]).
    rewrite (proj1 (space_caps _ _ f false (o + r) SP ltac:(cbv beta iota; lia))). cbn [caps_of]. apply owner_read; [exact D|exact Hi|lia]. }
  assert (R0 : exists v, cap_read (f_heap f i) 0 = Ok (Some v) /\ 0 <= v < 2 ^ 32 /\ Z.land (Z.shiftr v 20) 0xf = s pe_pcie_device_type mod 16).
  { unfold cap_read. rewrite K. cbn [is_ext]. change (0 =? 0) with true. cbv iota. cbn [kind_read]. unfold pec_read. change (0 =? 0) with true. cbv iota. fold s.
    eexists. split; [reflexivity|].
    set (b := Z.b2z (zbool (s pe_pcie_slot_implemented))). assert (HB : 0 <= b < 2) by (unfold b; destruct (zbool _); cbn; lia). clearbody b.
    match goal with |- 0 <= ?x < _ /\ _ => set (X := x) end.
    assert (X3 : Z.land X 0xffffffff = X) by (unfold X; bits).
    split; [rewrite <- X3; change 0xffffffff with (Z.ones 32); rewrite Z.land_ones by lia; apply Z.mod_pos_bound; lia|].
    assert (X1 : Z.land (Z.shiftr X 20) 0xf = Z.land (s pe_pcie_device_type) 15) by (unfold X; bits).
    rewrite X1. change 15 with (Z.ones 4). rewrite Z.land_ones by lia. reflexivity. }
  assert (R1 : exists v, cap_read (f_heap f i) 1 = Ok (Some v) /\ 0 <= v < 2 ^ 32 /\ Z.land v 7 = s pe_max_payload_size_supported mod 8).
  { unfold cap_read. rewrite K. cbn [is_ext]. change (1 =? 0) with false. cbv iota. cbn [kind_read]. fold s.
    destruct (pec_read_one s) as (v & -> & V1 & V2). exists v. split; [reflexivity|]. split; assumption. }
  destruct R0 as (v0 & V1 & V2 & V3). destruct R1 as (v1 & U1 & U2 & U3).
  assert (A0 : rd f o = Ok (Some v0)) by (rewrite <- V1, <- (R f 0) by (auto; lia); f_equal; lia).
  assert (A1 : rd (with_id dev f) (o + 1) = Ok (Some v1)) by (rewrite <- U1; apply R; [auto|lia]).
  replace (2 + 4 * o) with (4 * o + 2) by lia. rewrite (read_high rd wr ms tg crs dev W f o v0 A A0 V2). cbn [bind].
  replace (4 + 4 * o) with (4 * (o + 1)) by lia.
  pose proof (read_four rd wr ms tg crs dev W (with_id dev f) (o + 1) v1 (at_own dev f) A1 U2) as RF. unfold cfg_read_dword in RF.
  destruct (config_read (cfg_deliver rd wr tg) crs dev (4 * (o + 1)) 4 (with_id dev f)) as [[g d]|e]; [|discriminate RF].
  cbn [bind] in RF |- *. injection RF as -> ->. rewrite U3. do 4 f_equal.
  rewrite <- V3. cbn [from_le]. change 0xf with (Z.ones 4). rewrite !Z.land_ones, !Z.shiftr_div_pow2 by lia. change (2 ^ 32) with 4294967296 in V2.
  change (2 ^ 4) with 16. change (2 ^ 20) with 1048576. clear -V2. lia.
Qed.
