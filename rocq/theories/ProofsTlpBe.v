From Verif Require Import Base BaseProofs Bits ModelUtils ProofsUtils ModelTlp SpecTlp ProofsTlp.

Lemma land_not3 a : Z.land a (Z.lnot 3) = 4 * (a / 4).
Proof.
  change 3 with (Z.ones 2). rewrite <- Z.ldiff_land, Z.ldiff_ones_r by lia.
  rewrite Z.shiftl_mul_pow2, Z.shiftr_div_pow2 by lia. change (2 ^ 2) with 4. lia.
Qed.

(** The result of [set_addr_be] in closed form. *)
Record be_image (addr len : Z) (t : tlp) (r : (Z * Z) * tlp) : Prop := {
  b_pads : fst r = (addr mod 4, 3 - (addr + len - 1) mod 4);
  b_addr : address (snd r) = 4 * (addr / 4);
  b_len : tlen (snd r) = (addr + len - 1) / 4 - addr / 4 + 1;
  b_be : (first_be (snd r), last_be (snd r)) =
         if tlen (snd r) =? 1
         then (Z.land (Z.land (Z.shiftl 15 (addr mod 4)) 15) (Z.shiftr 15 (3 - (addr + len - 1) mod 4)), 0)
         else (Z.land (Z.shiftl 15 (addr mod 4)) 15, Z.shiftr 15 (3 - (addr + len - 1) mod 4));
  b_data : data (snd r) = data t;
}.
Lemma set_addr_be_image addr len t : 1 <= len -> be_image addr len t (set_addr_be addr len t).
Proof.
  intros H. unfold set_addr_be.
  set (k := (len + addr mod 4 + (3 - (addr + len - 1) mod 4) + 3) / 4).
  assert (K : k = (addr + len - 1) / 4 - addr / 4 + 1) by (subst k; lia).
  cbv zeta. change (tlen (set_last_be _ _)) with k.
  assert (k <> 0) by lia. destruct (Z.eqb_spec k 0) as [|_]; [lia|].
  destruct (Z.eqb_spec k 1) as [E|E]; split; cbn [fst snd];
  try (tlp_norm; cbn [fst snd]; fold k); try reflexivity; try apply land_not3; try lia.
  - cbn. rewrite E. reflexivity.
  - cbn. destruct (Z.eqb_spec k 1); [lia|reflexivity].
Qed.

Lemma mod4_cases x : x mod 4 = 0 \/ x mod 4 = 1 \/ x mod 4 = 2 \/ x mod 4 = 3.
Proof. lia. Qed.

Ltac be_cases addr len H :=
  let P := fresh "P" in let A := fresh "A" in let L := fresh "L" in let B := fresh "B" in
  destruct (set_addr_be_image addr len _ H) as [P A L B _];
  destruct (mod4_cases addr) as [M|[M|[M|M]]];
  destruct (mod4_cases (addr + len - 1)) as [N|[N|[N|N]]];
  rewrite M, N in *.

Lemma set_addr_be_addressed addr len t : 1 <= len ->
  forall a, addressed (snd (set_addr_be addr len t)) a <-> addr <= a < addr + len.
Proof.
  intros H a. destruct (set_addr_be_image addr len t H) as [P A L B _].
  set (u := snd (set_addr_be addr len t)) in *. clearbody u. clear P.
  unfold addressed, lane_enabled. rewrite A, L.
  destruct (Z.eqb_spec (tlen u) 1) as [E|E]; injection B as -> ->.
  - rewrite E in L.
    destruct (mod4_cases addr) as [M|[M|[M|M]]];
    destruct (mod4_cases (addr + len - 1)) as [N|[N|[N|N]]]; rewrite M, N; try lia;
    (match goal with |- context [Z.land (Z.land (Z.shiftl 15 ?x) 15) (Z.shiftr 15 ?y)] =>
       let v := eval vm_compute in (Z.land (Z.land (Z.shiftl 15 x) 15) (Z.shiftr 15 y)) in
       change (Z.land (Z.land (Z.shiftl 15 x) 15) (Z.shiftr 15 y)) with v end);
    (split;
     [ intros (i & j & Hi & Hj & -> & Ht); assert (i = 0) as -> by lia; cbn [Z.eqb] in Ht;
       assert (j = 0 \/ j = 1 \/ j = 2 \/ j = 3) as [-> | [-> | [-> | ->]]] by lia; cbn in Ht; try discriminate; lia
     | intros Ha; exists 0, (a - 4 * (addr / 4)); split; [lia|]; split; [lia|]; split; [lia|];
       cbn [Z.eqb];
       assert (a - 4 * (addr / 4) = 0 \/ a - 4 * (addr / 4) = 1 \/ a - 4 * (addr / 4) = 2 \/ a - 4 * (addr / 4) = 3) as [W | [W | [W | W]]] by lia; rewrite W;
       reflexivity || lia ]).
  - destruct (mod4_cases addr) as [M|[M|[M|M]]];
    destruct (mod4_cases (addr + len - 1)) as [N|[N|[N|N]]]; rewrite M, N;
    (match goal with |- context [Z.land (Z.shiftl 15 ?x) 15] =>
       let v := eval vm_compute in (Z.land (Z.shiftl 15 x) 15) in
       change (Z.land (Z.shiftl 15 x) 15) with v end);
    (match goal with |- context [Z.shiftr 15 ?y] =>
       let v := eval vm_compute in (Z.shiftr 15 y) in
       change (Z.shiftr 15 y) with v end);
    (split;
     [ intros (i & j & Hi & Hj & -> & Ht);
       destruct (Z.eqb_spec i 0);
       [ assert (j = 0 \/ j = 1 \/ j = 2 \/ j = 3) as [-> | [-> | [-> | ->]]] by lia; cbn in Ht; try discriminate; lia
       | destruct (Z.eqb_spec i ((addr + len - 1) / 4 - addr / 4 + 1 - 1));
         [ assert (j = 0 \/ j = 1 \/ j = 2 \/ j = 3) as [-> | [-> | [-> | ->]]] by lia; cbn in Ht; try discriminate; lia
         | lia ] ]
     | intros Ha; exists (a / 4 - addr / 4), (a mod 4); split; [lia|]; split; [lia|]; split; [lia|];
       destruct (mod4_cases a) as [W|[W|[W|W]]]; rewrite W;
       destruct (Z.eqb_spec (a / 4 - addr / 4) 0); try (reflexivity || lia);
       destruct (Z.eqb_spec (a / 4 - addr / 4) ((addr + len - 1) / 4 - addr / 4 + 1 - 1)); try (reflexivity || lia) ]).
Qed.

Lemma set_addr_be_getters addr len t : 1 <= len ->
  get_first_be_offset (snd (set_addr_be addr len t)) = addr mod 4 /\
  get_be_byte_count (snd (set_addr_be addr len t)) = len.
Proof.
  intros H. destruct (set_addr_be_image addr len t H) as [P A L B _].
  set (u := snd (set_addr_be addr len t)) in *. clearbody u. clear P A.
  unfold get_be_byte_count, get_last_be_offset, get_first_be_offset.
  destruct (Z.eqb_spec (tlen u) 1) as [E|E]; injection B as F G; rewrite ?E, ?F, ?G; rewrite L in *; clear F G;
  destruct (mod4_cases addr) as [M|[M|[M|M]]];
  destruct (mod4_cases (addr + len - 1)) as [N|[N|[N|N]]]; rewrite M, N; cbn; try lia.
Qed.

Lemma set_addr_be_zero addr t :
  tlen (snd (set_addr_be addr 0 t)) = 1 /\ forall a, ~ addressed (snd (set_addr_be addr 0 t)) a.
Proof.
  assert (G : tlen (snd (set_addr_be addr 0 t)) = 1 /\ first_be (snd (set_addr_be addr 0 t)) = 0).
  { unfold set_addr_be. cbv zeta. 
    set (k := (0 + addr mod 4 + (3 - (addr + 0 - 1) mod 4) + 3) / 4).
    change (tlen (set_last_be _ _)) with k.
    destruct (mod4_cases addr) as [M|[M|[M|M]]].
    - assert (k = 0) as -> by (subst k; lia). split; reflexivity.
    - assert (k = 1) as E by (subst k; lia). rewrite E. cbn [Z.eqb Pos.eqb snd]. tlp_norm. cbn [snd]. split; [reflexivity || exact E|].
      replace ((addr + 0 - 1) mod 4) with 0 by lia. rewrite M. reflexivity.
    - assert (k = 1) as E by (subst k; lia). rewrite E. cbn [Z.eqb Pos.eqb snd]. tlp_norm. cbn [snd]. split; [reflexivity || exact E|].
      replace ((addr + 0 - 1) mod 4) with 1 by lia. rewrite M. reflexivity.
    - assert (k = 1) as E by (subst k; lia). rewrite E. cbn [Z.eqb Pos.eqb snd]. tlp_norm. cbn [snd]. split; [reflexivity || exact E|].
      replace ((addr + 0 - 1) mod 4) with 2 by lia. rewrite M. reflexivity. }
  destruct G as [G1 G2]. split; [exact G1|]. intros a (i & j & Hi & Hj & _ & Ht).
  unfold lane_enabled in Ht. rewrite G1, G2 in *. assert (i = 0) as -> by lia. cbn [Z.eqb] in Ht.
  rewrite Z.bits_0 in Ht. discriminate.
Qed.

(** * C06 *)
Lemma enabled_bytes_app len f l i a b :
  enabled_bytes len f l i (a ++ b) = enabled_bytes len f l i a ++ enabled_bytes len f l (i + zlen a) b.
Proof.
  revert i. induction a as [|x a IH]; intros i; cbn [app enabled_bytes].
  - rewrite zlen_nil, Z.add_0_r. reflexivity.
  - rewrite IH, <- app_assoc, zlen_cons. do 3 f_equal; lia.
Qed.
Lemma enabled_bytes_none len f l i d :
  (forall j, i <= j < i + zlen d -> lane_enabled len f l (j / 4) (j mod 4) = false) ->
  enabled_bytes len f l i d = [].
Proof.
  revert i. induction d as [|x d IH]; intros i H; [reflexivity|]. cbn [enabled_bytes].
  rewrite zlen_cons in H. pose proof (zlen_nonneg d). rewrite H by lia. cbn [app]. apply IH. intros j Hj. apply H. lia.
Qed.
Lemma enabled_bytes_all len f l i d :
  (forall j, i <= j < i + zlen d -> lane_enabled len f l (j / 4) (j mod 4) = true) ->
  enabled_bytes len f l i d = d.
Proof.
  revert i. induction d as [|x d IH]; intros i H; [reflexivity|]. cbn [enabled_bytes].
  rewrite zlen_cons in H. pose proof (zlen_nonneg d). rewrite H by lia. cbn [app]. f_equal. apply IH. intros j Hj. apply H. lia.
Qed.

Lemma addressed_lane t a i : tlen t >= 1 -> address t mod 4 = 0 -> 0 <= i < 4 * tlen t -> a = address t + i ->
  (addressed t a <-> lane_enabled (tlen t) (first_be t) (last_be t) (i / 4) (i mod 4) = true).
Proof.
  intros Hl Ha Hi ->. split.
  - intros (x & y & Hx & Hy & E & Ht).
    replace (i / 4) with x by lia. replace (i mod 4) with y by lia. exact Ht.
  - intros Ht. exists (i / 4), (i mod 4). repeat split; try lia. exact Ht.
Qed.

Lemma set_addr_be_data_shape addr d t : d <> [] ->
  let u := set_addr_be_data addr d t in
  let v := snd (set_addr_be addr (zlen d) (set_address (Z.land addr (Z.lnot 3)) t)) in
  data u = zeros (Z.to_nat (addr mod 4)) ++ d ++ zeros (Z.to_nat (3 - (addr + zlen d - 1) mod 4)) /\
  tlen u = tlen v /\ first_be u = first_be v /\ last_be u = last_be v /\ address u = address v.
Proof.
  intros Hd. unfold set_addr_be_data. cbv zeta.
  assert (HL : 1 <= zlen d) by (destruct d; [congruence|rewrite zlen_cons; pose proof (zlen_nonneg d); lia]).
  destruct (set_addr_be_image addr (zlen d) (set_address (Z.land addr (Z.lnot 3)) t) HL) as [P _ _ _ _].
  destruct (set_addr_be addr (zlen d) (set_address (Z.land addr (Z.lnot 3)) t)) as [[fp lp] u]. cbn [fst] in P.
  injection P as -> ->. cbn [snd].
  set (dd := _ ++ _).
  assert (zlen dd <> 0).
  { subst dd. rewrite !zlen_app, !zlen_zeros. lia. }
  destruct (Z.eqb_spec (zlen dd) 0); [lia|]. tlp_norm. repeat split; reflexivity.
Qed.

Lemma set_addr_be_data_ok addr d t : d <> [] ->
  let u := set_addr_be_data addr d t in
  zlen (data u) = 4 * tlen u /\
  (forall a, addressed u a <-> addr <= a < addr + zlen d) /\
  (forall a, addr <= a < addr + zlen d ->
     nth (Z.to_nat (a - address u)) (data u) 0 = nth (Z.to_nat (a - addr)) d 0) /\
  enabled_data u = d.
Proof.
  intros Hd u.
  assert (HL : 1 <= zlen d) by (destruct d; [congruence|rewrite zlen_cons; pose proof (zlen_nonneg d); lia]).
  destruct (set_addr_be_data_shape addr d t Hd) as (E1 & E2 & E3 & E4 & E5). fold u in E1, E2, E3, E4, E5.
  pose proof (set_addr_be_addressed addr (zlen d) (set_address (Z.land addr (Z.lnot 3)) t) HL) as Q.
  pose proof (set_addr_be_image addr (zlen d) (set_address (Z.land addr (Z.lnot 3)) t) HL) as [_ IA IL _ _].
  set (v := snd (set_addr_be addr (zlen d) (set_address (Z.land addr (Z.lnot 3)) t))) in *.
  assert (Q' : forall a, addressed u a <-> addr <= a < addr + zlen d).
  { intros a. rewrite <- Q. unfold addressed. rewrite E2, E3, E4, E5. reflexivity. }
  clear Q. rewrite <- E5 in IA. rewrite <- E2 in IL. clear E2 E3 E4 E5. clearbody u. clear v.
  assert (Z1 : zlen (data u) = 4 * tlen u).
  { rewrite E1, !zlen_app, !zlen_zeros, IL. lia. }
  split; [exact Z1|]. split; [exact Q'|]. split.
  - intros a Ha. rewrite E1, IA. rewrite app_nth2; rewrite zeros_length; [|lia].
    rewrite app_nth1; [f_equal; lia|]. unfold zlen in *. lia.
  - unfold enabled_data. rewrite E1, !enabled_bytes_app, !zlen_zeros.
    assert (LE : forall i, 0 <= i < 4 * tlen u ->
      lane_enabled (tlen u) (first_be u) (last_be u) (i / 4) (i mod 4) = true <-> addr <= address u + i < addr + zlen d).
    { intros i Hi. rewrite <- Q'. symmetry. apply addressed_lane; lia. }
    assert (LF : forall i, 0 <= i < 4 * tlen u -> ~ (addr <= address u + i < addr + zlen d) ->
      lane_enabled (tlen u) (first_be u) (last_be u) (i / 4) (i mod 4) = false).
    { intros i Hi Hn. rewrite <- LE in Hn by exact Hi. destruct (lane_enabled _ _ _ _ _); [congruence|reflexivity]. }
    rewrite enabled_bytes_none; [|rewrite zlen_zeros; intros j Hj; apply LF; lia].
    rewrite enabled_bytes_all; [|intros j Hj; apply LE; lia].
    rewrite enabled_bytes_none; [|rewrite zlen_zeros; intros j Hj; apply LF; lia].
    rewrite app_nil_r. reflexivity.
Qed.

Lemma set_addr_be_data_empty addr t :
  let u := set_addr_be_data addr [] t in
  data u = [0; 0; 0; 0] /\ tlen u = 1 /\ forall a, ~ addressed u a.
Proof.
  cbv zeta. unfold set_addr_be_data. rewrite zlen_nil. cbv zeta.
  pose proof (set_addr_be_zero addr (set_address (Z.land addr (Z.lnot 3)) t)) as [Z1 Z2].
  assert (P : fst (set_addr_be addr 0 (set_address (Z.land addr (Z.lnot 3)) t)) = (addr mod 4, 3 - (addr + 0 - 1) mod 4)) by reflexivity.
  destruct (set_addr_be addr 0 (set_address (Z.land addr (Z.lnot 3)) t)) as [[fp lp] u]. cbn [fst snd] in *.
  injection P as -> ->. split; [|split; [exact Z1|exact Z2]].
  tlp_norm.
  destruct (mod4_cases addr) as [M|[M|[M|M]]]; rewrite M.
  - replace ((addr + 0 - 1) mod 4) with 3 by lia. reflexivity.
  - replace ((addr + 0 - 1) mod 4) with 0 by lia. reflexivity.
  - replace ((addr + 0 - 1) mod 4) with 1 by lia. reflexivity.
  - replace ((addr + 0 - 1) mod 4) with 2 by lia. reflexivity.
Qed.

(** * C07 *)
Lemma get_lower_address_value addr len t : 1 <= len ->
  get_lower_address (snd (set_addr_be addr len t)) = (addr / 4 * 4) mod 128.
Proof.
  intros H. unfold get_lower_address. destruct (set_addr_be_getters addr len t H) as [-> _].
  destruct (set_addr_be_image addr len t H) as [_ -> _ _ _].
  replace (4 * (addr / 4)) with (Z.shiftl (addr / 4) 2) by (rewrite Z.shiftl_mul_pow2 by lia; change (2 ^ 2) with 4; lia).
  replace (addr / 4 * 4) with (Z.shiftl (addr / 4) 2) by (rewrite Z.shiftl_mul_pow2 by lia; change (2 ^ 2) with 4; lia).
  change 128 with (2 ^ 7). rewrite <- Z.land_ones by lia.
  destruct (mod4_cases addr) as [M|[M|[M|M]]]; rewrite M; cbn [Z.add Pos.add]; bits.
Qed.

(** * C08 *)
Lemma type_in_In ty l : type_in ty l = true <-> In ty l.
Proof.
  unfold type_in. rewrite existsb_exists. split.
  - intros (x & Hx & E). unfold type_eqb in E.
    assert (C : type_code ty = type_code x).
    { destruct (type_code ty), (type_code x). cbn in E. f_equal; lia. }
    pose proof (fmt_type_code ty) as F1. pose proof (fmt_type_code x) as F2. rewrite C, F2 in F1.
    injection F1 as ->. exact Hx.
  - intros H. exists ty. split; [exact H|]. unfold type_eqb. lia.
Qed.

Lemma type_in_case ty l (P : Prop) (b : bool) : (b = true <-> ~ P) ->
  ((if type_in ty l then b else false) = true <-> ~ (In ty l -> P)).
Proof.
  intros H. destruct (type_in ty l) eqn:E.
  - apply type_in_In in E. rewrite H. tauto.
  - assert (~ In ty l) by (rewrite <- type_in_In; congruence). split; [discriminate|tauto].
Qed.

Lemma land_ones_mod a m k : 0 <= k -> m = 2 ^ k - 1 -> Z.land a m = a mod (m + 1).
Proof.
  intros Hk ->. replace (2 ^ k - 1) with (Z.ones k) by (rewrite Z.ones_equiv; lia).
  rewrite Z.land_ones by lia. f_equal. rewrite Z.ones_equiv. lia.
Qed.

Lemma check_complete ty t : fmt_type t = Ok ty -> legal ty t -> tlp_check t = Ok true.
Proof.
  intros Ht [L1 L2 L3 L4 L5]. unfold tlp_check. rewrite Ht. cbn [bind]. do 2 f_equal.
  apply negb_true_iff. rewrite !orb_false_iff. repeat split.
  - destruct ((fmt t =? 2) || (fmt t =? 3)) eqn:E; [|reflexivity].
    specialize (L1 ltac:(lia)). lia.
  - destruct (type_in ty _) eqn:E; [|reflexivity]. apply type_in_In in E. specialize (L2 E).
    rewrite (land_ones_mod _ 4095 12) by lia. cbn [Z.add Pos.add] in *. lia.
  - destruct (type_in ty _) eqn:E; [|reflexivity]. apply type_in_In in E. specialize (L4 E).
    rewrite (land_ones_mod _ 3 2) by lia. cbn [Z.add Pos.add] in *. lia.
  - destruct (type_in ty _) eqn:E; [|reflexivity]. apply type_in_In in E. specialize (L5 E). lia.
Qed.

Lemma check_sound ty t : fmt_type t = Ok ty -> tlp_check t = Ok true ->
  ~ In ty [CFG_READ_0; CFG_WRITE_0; CFG_READ_1; CFG_WRITE_1; IO_READ; IO_WRITE] ->
  zlen (data t) <= 4096 -> legal ty t.
Proof.
  intros Ht Hc Hn Hd. unfold tlp_check in Hc. rewrite Ht in Hc. cbn [bind] in Hc.
  apply Ok_inj in Hc. apply negb_true_iff in Hc. rewrite !orb_false_iff in Hc.
  destruct Hc as ((((C1 & C2) & _) & C4) & C5). split.
  - intros Hf. replace ((fmt t =? 2) || (fmt t =? 3)) with true in C1 by lia.
    pose proof (zlen_nonneg (data t)). lia.
  - intros Hi. apply type_in_In in Hi. rewrite Hi in C2.
    rewrite (land_ones_mod _ 4095 12) in C2 by lia. cbn [Z.add Pos.add] in *. lia.
  - intros Hi. destruct (Hn Hi).
  - intros Hi. apply type_in_In in Hi. rewrite Hi in C4.
    rewrite (land_ones_mod _ 3 2) in C4 by lia. cbn [Z.add Pos.add] in *. lia.
  - intros Hi. apply type_in_In in Hi. rewrite Hi in C5. lia.
Qed.

Lemma set_addr_be_minimal addr len t : 1 <= len ->
  address (snd (set_addr_be addr len t)) = 4 * (addr / 4) /\
  tlen (snd (set_addr_be addr len t)) = (addr + len - 1) / 4 - addr / 4 + 1.
Proof. intros H. destruct (set_addr_be_image addr len t H) as [_ A L _ _]. auto. Qed.

Lemma get_lower_address_aligned addr len t : 1 <= len -> addr mod 4 = 0 ->
  get_lower_address (snd (set_addr_be addr len t)) = addr mod 128.
Proof.
  intros H M. rewrite get_lower_address_value by exact H. f_equal. lia.
Qed.

(** A completion with 1025 DWORDs of payload passes. *)
Lemma check_length_refuted : exists ty t, fmt_type t = Ok ty /\ tlp_check t = Ok true /\
  (fmt t = 2 \/ fmt t = 3) /\ 1024 < tlen t.
Proof.
  exists CPL_DATA, (set_byte_count 4100 (set_tlen 1025 (set_data (zeros (Z.to_nat 4100)) (set_fmt_type CPL_DATA tlp0)))).
  split; [reflexivity|]. split; [|split; [left; reflexivity|reflexivity]].
  unfold tlp_check. tlp_norm. rewrite zlen_zeros, Z2Nat.id by lia. reflexivity.
Qed.
