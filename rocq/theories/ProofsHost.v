(** Configuration accesses by the host. *)
From Verif Require Import Base BaseProofs Bits ModelUtils ModelTlp ModelRegion ModelAttrs ModelCaps ModelCapList ModelConfig
  ModelFunction ModelHost SpecTlp SpecRegs SpecConfig SpecHost SpecCapFn ProofsTlp ProofsTlpBe ProofsMem ProofsIo
  ProofsRegs ProofsConfig ProofsConfigLow ProofsConfigTop.

(** ** Bytes of a word *)
Lemma from_le_bit : forall l i, bytes_ok l -> 0 <= i ->
  Z.testbit (from_le l) i = Z.testbit (nth (Z.to_nat (i / 8)) l 0) (i mod 8).
Proof.
  induction l as [|x l IH]; intros i H Hi.
  - cbn [from_le]. rewrite Z.bits_0. destruct (Z.to_nat (i / 8)); cbn; rewrite Z.bits_0; reflexivity.
  - inversion H as [|? ? Hx Hl]. subst. cbn [from_le]. unfold byte_ok in Hx.
    destruct (Z.ltb_spec i 8).
    + replace (Z.to_nat (i / 8)) with O by lia. cbn [nth]. replace (i mod 8) with i by lia.
      rewrite <- (Z.mod_pow2_bits_low (x + 256 * from_le l) 8) by lia. change (2 ^ 8) with 256. f_equal.
      rewrite (Z.mul_comm 256), Z.mod_add by lia. apply Z.mod_small. lia.
    + replace (Z.to_nat (i / 8)) with (S (Z.to_nat ((i - 8) / 8))) by lia. cbn [nth].
      replace (i mod 8) with ((i - 8) mod 8) by lia. rewrite <- IH by (assumption || lia).
      replace i with (i - 8 + 8) at 1 by lia. rewrite <- Z.div_pow2_bits by lia. change (2 ^ 8) with 256. f_equal.
      rewrite (Z.mul_comm 256), Z.div_add by lia. rewrite Z.div_small; lia.
Qed.
Lemma le_bytes_nth : forall n v j, 0 <= j < Z.of_nat n -> nth (Z.to_nat j) (le_bytes n v) 0 = (v / 2 ^ (8 * j)) mod 256.
Proof.
  induction n as [|n IH]; intros v j H; [lia|]. cbn [le_bytes]. destruct (Z.eq_dec j 0) as [->|N].
  - cbn. rewrite Z.div_1_r. reflexivity.
  - replace (Z.to_nat j) with (S (Z.to_nat (j - 1))) by lia. cbn [nth]. rewrite IH by lia. f_equal.
    rewrite Z.div_div by lia. f_equal. replace (8 * j) with (8 + 8 * (j - 1)) by lia. rewrite Z.pow_add_r by lia. reflexivity.
Qed.

(** ** Kinds of functions *)
Lemma kinds_spaces rd wr ms : In (rd, wr, ms) cfg_kinds -> In (rd, wr) spaces.
Proof. intros [E|[E|[E|[]]]]; injection E as <- <- <-; cbn; auto. Qed.
Lemma kinds_follow rd wr ms : In (rd, wr, ms) cfg_kinds -> config_follow rd wr ms.
Proof. intros [E|[E|[E|[]]]]; injection E as <- <- <-; [exact fn_follow|exact ep_follow|exact br_follow]. Qed.
Lemma kinds_id rd wr ms : In (rd, wr, ms) cfg_kinds -> forall i f r, rd (with_id i f) r = rd f r /\ ms (with_id i f) r = ms f r.
Proof. intros [E|[E|[E|[]]]]; injection E as <- <- <-; intros i f r; split; reflexivity. Qed.
Lemma kinds_wr_id rd wr ms : In (rd, wr, ms) cfg_kinds -> forall reg d m f, f_id (wr reg d m f) = f_id f.
Proof.
  assert (FN : forall reg d m f, f_id (fn_write reg d m f) = f_id f).
  { intros. unfold fn_write. repeat match goal with |- f_id (if ?b then _ else _) = _ => destruct b; [reflexivity|] end; try reflexivity. }
  intros [E|[E|[E|[]]]]; injection E as <- <- <-; [exact FN| |]; intros reg d m f;
    [unfold ep_write|unfold br_write; destruct (reg =? 4)]; repeat match goal with |- f_id (if ?b then _ else _) = _ => destruct b; [reflexivity|] end; rewrite FN; reflexivity.
Qed.

(** ** Requests *)
Definition cfg_req ty dev : tlp := set_completer_id dev (set_requester_id id0 (set_fmt_type ty tlp0)).
Lemma be_bit addr k j : 1 <= k -> addr mod 4 + k <= 4 -> 0 <= j ->
  Z.testbit (Z.land (Z.land (Z.shiftl 15 (addr mod 4)) 15) (Z.shiftr 15 (3 - (addr + k - 1) mod 4))) j =
  (addr mod 4 <=? j) && (j <? addr mod 4 + k).
Proof.
  intros H1 H2 Hj. replace ((addr + k - 1) mod 4) with (addr mod 4 + k - 1) by lia.
  assert (C : addr mod 4 = 0 \/ addr mod 4 = 1 \/ addr mod 4 = 2 \/ addr mod 4 = 3) by lia.
  assert (C' : k = 1 \/ k = 2 \/ k = 3 \/ k = 4) by lia.
  destruct (Z.ltb_spec j 4) as [L|G].
  - assert (J : j = 0 \/ j = 1 \/ j = 2 \/ j = 3) by lia.
    destruct C as [M|[M|[M|M]]]; rewrite M in *; destruct C' as [-> | [-> | [-> | ->]]]; try lia;
      destruct J as [-> | [-> | [-> | ->]]]; reflexivity.
  - rewrite !Z.land_spec. rewrite (testbit_high 15 4 j) by lia. rewrite andb_false_r. cbn [andb]. lia.
Qed.
Lemma be_range addr k : 1 <= k -> addr mod 4 + k <= 4 ->
  0 <= Z.land (Z.land (Z.shiftl 15 (addr mod 4)) 15) (Z.shiftr 15 (3 - (addr + k - 1) mod 4)) < 16.
Proof.
  intros H1 H2. replace ((addr + k - 1) mod 4) with (addr mod 4 + k - 1) by lia.
  assert (C : addr mod 4 = 0 \/ addr mod 4 = 1 \/ addr mod 4 = 2 \/ addr mod 4 = 3) by lia.
  assert (C' : k = 1 \/ k = 2 \/ k = 3 \/ k = 4) by lia.
  destruct C as [M|[M|[M|M]]]; rewrite M in *; destruct C' as [-> | [-> | [-> | ->]]]; try lia; cbn; lia.
Qed.
Lemma read_req addr k dev : 1 <= k -> addr mod 4 + k <= 4 ->
  let u := snd (set_addr_be addr k (cfg_req CFG_READ_1 dev)) in
  address u = 4 * (addr / 4) /\ completer_id u = dev /\ fmt_type u = Ok CFG_READ_1 /\ ep u = false.
Proof.
  intros H1 H2 u. destruct (set_addr_be_image addr k (cfg_req CFG_READ_1 dev) H1) as [_ A _ _ _]. fold u in A.
  split; [exact A|]. subst u. unfold set_addr_be. cbv zeta. destruct (_ =? 0); [|destruct (_ =? 1)]; repeat split; reflexivity.
Qed.
Lemma write_req addr d dev : d <> [] -> addr mod 4 + zlen d <= 4 ->
  let u := set_addr_be_data addr d (cfg_req CFG_WRITE_1 dev) in
  address u = 4 * (addr / 4) /\ completer_id u = dev /\ fmt_type u = Ok CFG_WRITE_1 /\ ep u = false /\
  0 <= first_be u < 16 /\ (forall j, 0 <= j -> Z.testbit (first_be u) j = (addr mod 4 <=? j) && (j <? addr mod 4 + zlen d)) /\
  data u = zeros (Z.to_nat (addr mod 4)) ++ d ++ zeros (Z.to_nat (3 - (addr + zlen d - 1) mod 4)) /\
  length (data u) = 4%nat.
Proof.
  intros Hd H2 u. assert (H1 : 1 <= zlen d) by (destruct d; [congruence|rewrite zlen_cons; pose proof (zlen_nonneg d); lia]).
  destruct (set_addr_be_data_shape addr d (cfg_req CFG_WRITE_1 dev) Hd) as (D & T & FB & LB & AD). fold u in D, T, FB, LB, AD.
  set (t0 := set_address (Z.land addr (Z.lnot 3)) (cfg_req CFG_WRITE_1 dev)) in *.
  destruct (set_addr_be_image addr (zlen d) t0 H1) as [_ A L B _].
  replace (tlen (snd (set_addr_be addr (zlen d) t0)) =? 1) with true in B by lia.
  pose proof (f_equal fst B) as B1. cbn [fst] in B1. rewrite <- FB in B1. rewrite <- AD in A.
  split; [exact A|]. split; [|split; [|split]].
  1-3: clear; subst u; unfold set_addr_be_data, set_addr_be; cbv zeta;
    repeat match goal with |- context [if ?b then _ else _] => destruct b end; repeat split; reflexivity.
  split; [rewrite B1; apply be_range; lia|]. split; [intros j Hj; rewrite B1; apply be_bit; lia|].
  split; [exact D|]. rewrite D, !app_length, !zeros_length. unfold zlen in *. lia.
Qed.

(** ** Delivery *)
Lemma completion_send f t cid d st : ep t = false -> (d = [] \/ length d = 4%nat) ->
  let c := match d with [] => create_completion t cid false st | _ => set_byte_count 4 (tlp_set_data d (create_completion t cid true st)) end in
  fn_upstream_send c f = Ok f.
Proof.
  intros E H. unfold fn_upstream_send. destruct H as [->|H].
  - cbv zeta. change (tlp_check (create_completion t cid false st)) with (Ok true). cbn [bind py_assert].
    change (ep (create_completion t cid false st)) with false. rewrite andb_false_r. reflexivity.
  - do 5 (destruct d as [|? d]; try discriminate H). cbv zeta.
    set (c := set_byte_count _ _). change (tlp_check c) with (Ok true). cbn [bind py_assert].
    change (ep c) with false. rewrite andb_false_r. reflexivity.
Qed.
Definition at_id (dev : pcie_id) (f : fnc) : Prop := device (f_id f) = device dev /\ func (f_id f) = func dev.
Lemma deliver_read rd wr tg f dev addr k v : at_id dev f -> 1 <= k -> addr mod 4 + k <= 4 ->
  (forall i r, rd (with_id i f) r = rd f r) -> rd f (addr / 4) = Ok (Some v) -> 0 <= v < 2 ^ 32 ->
  exists c, cfg_deliver rd wr tg f (snd (set_addr_be addr k (cfg_req CFG_READ_1 dev))) = Ok (with_id (mkId (bus dev) (device (f_id f)) (func (f_id f))) f, [c]) /\
    status c = SC /\ tlen c = 1 /\ data c = le_bytes 4 v.
Proof.
  intros [I1 I2] H1 H2 RI R V. destruct (read_req addr k dev H1 H2) as (A & C & T & E).
  set (u := snd (set_addr_be addr k (cfg_req CFG_READ_1 dev))) in *. clearbody u.
  unfold cfg_deliver, to_type0. change (fmt_type (set_tag (tg (address u)) u)) with (fmt_type u). rewrite T. cbn [bind].
  set (w := set_fmt_type CFG_READ_0 (set_tag (tg (address u)) u)).
  change (fmt_type w) with (Ok CFG_READ_0). cbn [bind]. unfold handle_config_0_read, cfg_target.
  change (completer_id w) with (completer_id u). rewrite C, I1, I2, !Z.eqb_refl. cbn [andb].
  unfold capture. change (completer_id w) with (completer_id u). rewrite C, RI. change (address w) with (address u).
  rewrite A, shiftr2. replace (4 * (addr / 4) / 4) with (addr / 4) by lia. rewrite R. cbn [bind].
  rewrite struct_pack_le_ok by (change (256 ^ Z.of_nat 4) with (2 ^ 32); lia). cbn [bind].
  assert (L : length (le_bytes 4 v) = 4%nat) by apply le_bytes_length.
  rewrite I1, I2. set (f1 := with_id _ f). pose proof (completion_send f1 w (f_id f1) (le_bytes 4 v) SC E (or_intror L)) as S.
  destruct (le_bytes 4 v) as [|b0 bs] eqn:EB; [discriminate L|]. cbv zeta in S. unfold create_completion_data. rewrite S. cbn [bind].
  eexists. split; [reflexivity|]. split; [reflexivity|]. split; [|reflexivity].
  change (zlen (b0 :: bs) / 4 = 1). unfold zlen. rewrite L. reflexivity.
Qed.
Lemma deliver_write rd wr tg f dev addr d : at_id dev f -> d <> [] -> addr mod 4 + zlen d <= 4 -> bytes_ok d ->
  exists c x be, cfg_deliver rd wr tg f (set_addr_be_data addr d (cfg_req CFG_WRITE_1 dev)) =
    Ok (wr (addr / 4) x be (with_id (mkId (bus dev) (device (f_id f)) (func (f_id f))) f), [c]) /\ status c = SC /\
    0 <= be < 16 /\ (forall j, 0 <= j -> Z.testbit be j = (addr mod 4 <=? j) && (j <? addr mod 4 + zlen d)) /\
    (forall i, 0 <= i -> addr mod 4 <= i / 8 < addr mod 4 + zlen d ->
       Z.testbit x i = Z.testbit (nth (Z.to_nat (i / 8 - addr mod 4)) d 0) (i mod 8)).
Proof.
  intros [I1 I2] Hd H2 BD. destruct (write_req addr d dev Hd H2) as (A & C & T & E & B1 & B2 & D & L).
  set (u := set_addr_be_data addr d (cfg_req CFG_WRITE_1 dev)) in *. clearbody u.
  unfold cfg_deliver, to_type0. change (fmt_type (set_tag (tg (address u)) u)) with (fmt_type u). rewrite T. cbn [bind].
  set (w := set_fmt_type CFG_WRITE_0 (set_tag (tg (address u)) u)).
  change (fmt_type w) with (Ok CFG_WRITE_0). cbn [bind]. unfold handle_config_0_write, cfg_target.
  change (completer_id w) with (completer_id u). rewrite C, I1, I2, !Z.eqb_refl. cbn [andb].
  unfold unpack_l. change (data w) with (data u). rewrite L. cbn [Nat.eqb bind]. unfold capture. change (completer_id w) with (completer_id u).
  rewrite C. change (address w) with (address u). change (first_be w) with (first_be u).
  rewrite A, shiftr2. replace (4 * (addr / 4) / 4) with (addr / 4) by lia.
  rewrite I1, I2. set (f1 := wr _ _ _ _).
  pose proof (completion_send f1 w (f_id f1) [] SC E (or_introl eq_refl)) as S. cbv zeta in S. rewrite S. cbn [bind].
  do 3 eexists. split; [reflexivity|]. split; [reflexivity|]. split; [exact B1|]. split; [exact B2|].
  intros i Hi Hr. assert (BU : bytes_ok (data u)).
  { rewrite D. apply Forall_app. split; [|apply Forall_app; split; [exact BD|]]; apply Forall_forall; intros x X; apply repeat_spec in X; subst x; unfold byte_ok; lia. }
  rewrite from_le_bit by assumption. f_equal. rewrite D, app_nth2; rewrite zeros_length; [|lia]. rewrite app_nth1 by (unfold zlen in *; lia).
  f_equal. lia.
Qed.

(** ** The loops *)
Lemma len_spec addr rem : 1 <= rem -> let k := Z.min rem (4 - addr mod 4) in 1 <= k <= rem /\ addr mod 4 + k <= 4 /\ (k < rem -> addr mod 4 + k = 4).
Proof. intros H. cbv zeta. lia. Qed.
Lemma with_id_twice i j f : with_id i (with_id j f) = with_id i f.
Proof. reflexivity. Qed.
Lemma config_read_ok rd wr ms tg crs dev : In (rd, wr, ms) cfg_kinds -> forall fuel addr rem acc f, 0 <= rem <= Z.of_nat fuel -> at_id dev f ->
  (forall r, addr / 4 <= r <= (addr + rem - 1) / 4 -> readable rd f r) ->
  exists d, config_read_loop fuel (cfg_deliver rd wr tg) crs dev addr rem acc f =
    Ok (if rem =? 0 then f else with_id (mkId (bus dev) (device (f_id f)) (func (f_id f))) f, acc ++ d) /\ rem <= zlen d /\
    forall k, 0 <= k < rem -> cfg_byte rd f (addr + k) = Some (nth (Z.to_nat k) d 0).
Proof.
  intros W. pose proof (fun i f r => proj1 (kinds_id _ _ _ W i f r)) as RI.
  induction fuel as [|fuel IH]; intros addr rem acc f H I RD.
  - exists []. replace (rem =? 0) with true by lia. cbn [config_read_loop]. rewrite app_nil_r. split; [reflexivity|]. split; [cbn; lia|]. lia.
  - cbn [config_read_loop]. destruct (0 <? rem) eqn:E.
    2:{ exists []. replace (rem =? 0) with true by lia. rewrite app_nil_r. split; [reflexivity|]. split; [cbn; lia|]. lia. }
    replace (rem =? 0) with false by lia.
    destruct (len_spec addr rem ltac:(lia)) as (K1 & K2 & K3). cbv zeta in *. set (k := Z.min rem (4 - addr mod 4)) in *. clearbody k.
    destruct (RD (addr / 4) ltac:(lia)) as (v & R & V).
    change (set_completer_id dev (set_requester_id id0 (set_fmt_type CFG_READ_1 tlp0))) with (cfg_req CFG_READ_1 dev).
    destruct (deliver_read rd wr tg f dev addr k v I ltac:(lia) K2 (fun i r => RI i f r) R V) as (c & -> & S & T & D). cbn [bind].
    unfold config_read_data. rewrite S. change (SC =? CRS) with false. cbn [andb]. change (negb (SC =? SC)) with false. cbn iota.
    rewrite T. cbn [Z.eqb Pos.eqb py_assert bind]. rewrite D.
    set (f1 := with_id _ f). assert (I1 : at_id dev f1) by exact I.
    destruct (IH (addr + k) (rem - k) (acc ++ skipn (Z.to_nat (addr mod 4)) (le_bytes 4 v)) f1) as (d & -> & L & B); [lia|exact I1| |].
    { intros r Hr. destruct (RD r) as (x & X & Y); [lia|]. exists x. split; [unfold f1; rewrite RI; exact X|exact Y]. }
    exists (skipn (Z.to_nat (addr mod 4)) (le_bytes 4 v) ++ d). rewrite <- app_assoc. split; [|split].
    + destruct (rem - k =? 0); reflexivity.
    + rewrite zlen_app. unfold zlen in *. rewrite skipn_length, le_bytes_length. lia.
    + intros j Hj. assert (LS : length (skipn (Z.to_nat (addr mod 4)) (le_bytes 4 v)) = Z.to_nat (4 - addr mod 4)) by (rewrite skipn_length, le_bytes_length; lia).
      destruct (Z.ltb_spec j k).
      * rewrite app_nth1 by (rewrite LS; lia). rewrite nth_skipn_add. replace (Z.to_nat (addr mod 4) + Z.to_nat j)%nat with (Z.to_nat (addr mod 4 + j)) by lia.
        rewrite le_bytes_nth by lia. unfold cfg_byte. replace ((addr + j) / 4) with (addr / 4) by lia. rewrite R.
        replace ((addr + j) mod 4) with (addr mod 4 + j) by lia. reflexivity.
      * rewrite app_nth2 by (rewrite LS; lia). rewrite LS. specialize (B (j - k) ltac:(lia)). replace (addr + k + (j - k)) with (addr + j) in B by lia.
        replace (Z.to_nat j - Z.to_nat (4 - addr mod 4))%nat with (Z.to_nat (j - k)) by lia. rewrite <- B. unfold cfg_byte, f1. rewrite RI. reflexivity.
Qed.
Lemma config_write_ok rd wr ms tg dev : In (rd, wr, ms) cfg_kinds -> forall fuel addr d f, zlen d <= Z.of_nat fuel -> at_id dev f -> bytes_ok d ->
  exists f', config_write_loop fuel (cfg_deliver rd wr tg) dev addr d f = Ok f' /\ at_id dev f' /\
    forall r v rw w1c exc, rd f r = Ok (Some v) -> ms f r = Some (rw, w1c, exc) ->
    exists v', rd f' r = Ok (Some v') /\ ms f' r = Some (rw, w1c, exc) /\
      (forall i, 0 <= i -> Z.testbit exc i = false -> Z.testbit v' i = host_bit rw w1c addr d r v i) /\
      (zlen d = 0 \/ 4 * r + 4 <= addr \/ addr + zlen d <= 4 * r -> v' = v).
Proof.
  intros W. pose proof (kinds_id _ _ _ W) as RI. pose proof (kinds_follow _ _ _ W) as FL. pose proof (kinds_wr_id _ _ _ W) as WI.
  induction fuel as [|fuel IH]; intros addr d f H I BD; pose proof (zlen_nonneg d) as LD.
  1,2: assert (NIL : zlen d = 0 -> exists f', Ok f = Ok f' /\ at_id dev f' /\
    forall r v rw w1c exc, rd f r = Ok (Some v) -> ms f r = Some (rw, w1c, exc) ->
    exists v', rd f' r = Ok (Some v') /\ ms f' r = Some (rw, w1c, exc) /\
      (forall i, 0 <= i -> Z.testbit exc i = false -> Z.testbit v' i = host_bit rw w1c addr d r v i) /\
      (zlen d = 0 \/ 4 * r + 4 <= addr \/ addr + zlen d <= 4 * r -> v' = v)).
  1,3: intros L; exists f; split; [reflexivity|]; split; [exact I|]; intros r v rw w1c exc R M; exists v; split; [exact R|]; split; [exact M|];
    split; [|reflexivity]; intros i Hi _; unfold host_bit; replace ((i <? 32) && (addr <=? 4 * r + i / 8) && (4 * r + i / 8 <? addr + zlen d)) with false by lia; reflexivity.
  - cbn [config_write_loop]. apply NIL. lia.
  - cbn [config_write_loop]. destruct (0 <? zlen d) eqn:E; [|apply NIL; lia]. clear NIL.
    destruct (len_spec addr (zlen d) ltac:(lia)) as (K1 & K2 & K3). cbv zeta in *. set (k := Z.min (zlen d) (4 - addr mod 4)) in *. clearbody k.
    assert (S : ModelRegion.slice 0 k d = firstn (Z.to_nat k) d) by (unfold ModelRegion.slice; cbn [skipn Z.to_nat]; f_equal; lia). rewrite S. clear S.
    set (d1 := firstn (Z.to_nat k) d) in *. assert (L1 : zlen d1 = k) by (apply zlen_firstn; lia).
    assert (N1 : d1 <> []) by (intros X; rewrite X in L1; cbn in L1; lia).
    destruct (deliver_write rd wr tg f dev addr d1 I N1 ltac:(lia) (bytes_ok_firstn _ _ BD)) as (c & x & be & Q & _ & B1 & B2 & X).
    change (set_completer_id dev (set_requester_id id0 (set_fmt_type CFG_WRITE_1 tlp0))) with (cfg_req CFG_WRITE_1 dev).
    rewrite Q. cbn [bind]. clear Q.
    set (f0 := with_id _ f). set (f1 := wr (addr / 4) x be f0).
    assert (I1 : at_id dev f1) by (unfold at_id, f1; rewrite WI; exact I).
    destruct (IH (addr + k) (skipn (Z.to_nat k) d) f1) as (f' & E' & I' & P); [rewrite zlen_skipn by lia; lia|exact I1|apply bytes_ok_skipn; exact BD|].
    exists f'. split; [exact E'|]. split; [exact I'|]. intros r v rw w1c exc R M.
    assert (R0 : rd f0 r = Ok (Some v)) by (unfold f0; rewrite (proj1 (RI _ _ _)); exact R).
    assert (M0 : ms f0 r = Some (rw, w1c, exc)) by (unfold f0; rewrite (proj2 (RI _ _ _)); exact M).
    destruct (FL f0 (addr / 4) x be r v rw w1c exc B1 R0 M0) as (v1 & R1 & M1 & U). fold f1 in R1, M1.
    destruct (P r v1 rw w1c exc R1 M1) as (v' & R2 & M2 & U2 & F2). exists v'. split; [exact R2|]. split; [exact M2|].
    rewrite zlen_skipn in F2 by lia.
    assert (V1 : r <> addr / 4 -> v1 = v) by (intros N; replace (r =? addr / 4) with false in U by lia; exact U).
    split.
    + intros i Hi Hx. destruct (Z.eq_dec r (addr / 4)) as [->|N].
      * rewrite Z.eqb_refl in U. rewrite (F2 ltac:(lia)). rewrite U by assumption. unfold upd_bit, host_bit. rewrite B2 by lia. rewrite L1.
        destruct ((addr mod 4 <=? i / 8) && (i / 8 <? addr mod 4 + k)) eqn:C.
        -- replace ((i <? 32) && (addr <=? 4 * (addr / 4) + i / 8) && (4 * (addr / 4) + i / 8 <? addr + zlen d)) with true by lia.
           rewrite X by lia. unfold d1. rewrite nth_firstn_lt by lia. replace (4 * (addr / 4) + i / 8 - addr) with (i / 8 - addr mod 4) by lia. reflexivity.
        -- replace ((i <? 32) && (addr <=? 4 * (addr / 4) + i / 8) && (4 * (addr / 4) + i / 8 <? addr + zlen d)) with false; [reflexivity|]. lia.
      * rewrite U2 by assumption. rewrite (V1 N). unfold host_bit. rewrite zlen_skipn by lia. replace (addr + k + (zlen d - k)) with (addr + zlen d) by lia.
        destruct (Z.ltb_spec i 32) as [I32|I32]; [|reflexivity]. cbn [andb].
        destruct (Z.leb_spec (addr + k) (4 * r + i / 8)) as [G|G].
        -- replace (addr <=? 4 * r + i / 8) with true by lia. cbn [andb]. rewrite nth_skipn_add.
           destruct (4 * r + i / 8 <? addr + zlen d); [|reflexivity]. replace (Z.to_nat k + Z.to_nat (4 * r + i / 8 - (addr + k)))%nat with (Z.to_nat (4 * r + i / 8 - addr)) by lia. reflexivity.
        -- cbn [andb]. replace ((addr <=? 4 * r + i / 8) && (4 * r + i / 8 <? addr + zlen d)) with false; [reflexivity|]. lia.
    + intros O. rewrite F2 by lia. apply V1. lia.
Qed.

Lemma at_id_eq dev f : at_id dev f -> mkId (bus dev) (device (f_id f)) (func (f_id f)) = dev.
Proof. intros [-> ->]. destruct dev; reflexivity. Qed.
Lemma config_write_id rd wr ms tg dev : In (rd, wr, ms) cfg_kinds -> forall fuel addr d f f', zlen d <= Z.of_nat fuel -> at_id dev f -> bytes_ok d ->
  config_write_loop fuel (cfg_deliver rd wr tg) dev addr d f = Ok f' -> 0 < zlen d -> f_id f' = dev.
Proof.
  intros W. pose proof (kinds_wr_id _ _ _ W) as WI.
  induction fuel as [|fuel IH]; intros addr d f f' H I BD E L; [lia|]. cbn [config_write_loop] in E. replace (0 <? zlen d) with true in E by lia.
  destruct (len_spec addr (zlen d) ltac:(lia)) as (K1 & K2 & K3). cbv zeta in *. set (k := Z.min (zlen d) (4 - addr mod 4)) in *. clearbody k.
  assert (S : ModelRegion.slice 0 k d = firstn (Z.to_nat k) d) by (unfold ModelRegion.slice; cbn [skipn Z.to_nat]; f_equal; lia). rewrite S in E. clear S.
  assert (L1 : zlen (firstn (Z.to_nat k) d) = k) by (apply zlen_firstn; lia).
  assert (N1 : firstn (Z.to_nat k) d <> []) by (intros X; rewrite X in L1; cbn in L1; lia).
  destruct (deliver_write rd wr tg f dev addr _ I N1 ltac:(lia) (bytes_ok_firstn _ _ BD)) as (c & x & be & Q & _).
  unfold cfg_req in Q. rewrite Q in E. cbn [bind] in E. rewrite (at_id_eq dev f I) in E.
  set (f1 := wr _ _ _ _) in E. assert (I1 : f_id f1 = dev) by (unfold f1; rewrite WI; reflexivity).
  pose proof (zlen_skipn k d ltac:(lia)) as LS. destruct (Z.eq_dec (zlen d) k) as [EQ|NE].
  - destruct fuel as [|fuel]; cbn [config_write_loop] in E; [apply Ok_inj in E; subst f'; exact I1|].
    replace (0 <? zlen (skipn (Z.to_nat k) d)) with false in E by lia. apply Ok_inj in E. subst f'. exact I1.
  - refine (IH _ _ _ _ _ _ _ E _); [lia|unfold at_id; rewrite I1; split; reflexivity|apply bytes_ok_skipn; exact BD|lia].
Qed.

(** A request to another device or function number. *)
Lemma deliver_other rd wr tg f dev t ty : (device (f_id f) <> device dev \/ func (f_id f) <> func dev) -> completer_id t = dev -> ep t = false ->
  fmt_type t = Ok ty -> ty = CFG_READ_1 \/ ty = CFG_WRITE_1 ->
  exists c, cfg_deliver rd wr tg f t = Ok (f, [c]) /\ status c = UR.
Proof.
  intros N C E T K. unfold cfg_deliver, to_type0. change (fmt_type (set_tag (tg (address t)) t)) with (fmt_type t). rewrite T. cbn [bind].
  assert (G : cfg_target t f = false).
  { unfold cfg_target. rewrite C. destruct N as [N|N].
    - rewrite (proj2 (Z.eqb_neq _ _)) by congruence. reflexivity.
    - rewrite andb_comm, (proj2 (Z.eqb_neq _ _)) by congruence. reflexivity. }
  destruct K as [-> | ->]; cbn [fmt_type bind].
  1: set (w := set_fmt_type CFG_READ_0 (set_tag (tg (address t)) t)); change (fmt_type w) with (Ok CFG_READ_0); cbn [bind];
     unfold handle_config_0_read; change (cfg_target w f) with (cfg_target t f).
  2: set (w := set_fmt_type CFG_WRITE_0 (set_tag (tg (address t)) t)); change (fmt_type w) with (Ok CFG_WRITE_0); cbn [bind];
     unfold handle_config_0_write; change (cfg_target w f) with (cfg_target t f).
  all: rewrite G; pose proof (completion_send f w (f_id f) [] UR E (or_introl eq_refl)) as S; cbv zeta in S; unfold create_ur_completion; rewrite S; cbn [bind];
    eexists; split; reflexivity.
Qed.
Lemma config_read_other rd wr tg crs dev f : device (f_id f) <> device dev \/ func (f_id f) <> func dev ->
  forall fuel addr rem acc, 0 <= rem <= Z.of_nat fuel ->
  exists n, config_read_loop fuel (cfg_deliver rd wr tg) crs dev addr rem acc f = Ok (f, acc ++ repeat 0xff n) /\ rem <= Z.of_nat n.
Proof.
  intros N. induction fuel as [|fuel IH]; intros addr rem acc H.
  - exists O. cbn [config_read_loop repeat]. rewrite app_nil_r. split; [reflexivity|lia].
  - cbn [config_read_loop]. destruct (0 <? rem) eqn:E; [|exists O; cbn [repeat]; rewrite app_nil_r; split; [reflexivity|lia]].
    destruct (len_spec addr rem ltac:(lia)) as (K1 & K2 & K3). cbv zeta in *. set (k := Z.min rem (4 - addr mod 4)) in *. clearbody k.
    destruct (read_req addr k dev ltac:(lia) K2) as (A & C & T & EP). unfold cfg_req in *.
    destruct (deliver_other rd wr tg f dev _ _ N C EP T (or_introl eq_refl)) as (c & Q & S). rewrite Q. cbn [bind].
    unfold config_read_data. rewrite S. change (UR =? CRS) with false. cbn [andb]. change (negb (UR =? SC)) with true. cbn iota. cbn [bind].
    destruct (IH (addr + k) (rem - k) (acc ++ skipn (Z.to_nat (addr mod 4)) [255; 255; 255; 255]) ltac:(lia)) as (n & -> & L).
    exists (Z.to_nat (4 - addr mod 4) + n)%nat. split; [|lia]. rewrite repeat_app, app_assoc. do 4 f_equal.
    assert (M : addr mod 4 = 0 \/ addr mod 4 = 1 \/ addr mod 4 = 2 \/ addr mod 4 = 3) by lia. destruct M as [-> | [-> | [-> | ->]]]; reflexivity.
Qed.
Lemma config_write_other rd wr tg dev f : device (f_id f) <> device dev \/ func (f_id f) <> func dev ->
  forall fuel addr d, config_write_loop fuel (cfg_deliver rd wr tg) dev addr d f = Ok f.
Proof.
  intros N. induction fuel as [|fuel IH]; intros addr d; [reflexivity|].
  cbn [config_write_loop]. destruct (0 <? zlen d) eqn:E; [|reflexivity].
  destruct (len_spec addr (zlen d) ltac:(lia)) as (K1 & K2 & K3). cbv zeta in *. set (k := Z.min (zlen d) (4 - addr mod 4)) in *. clearbody k.
  assert (S : ModelRegion.slice 0 k d = firstn (Z.to_nat k) d) by (unfold ModelRegion.slice; cbn [skipn Z.to_nat]; f_equal; lia). rewrite S. clear S.
  assert (L1 : zlen (firstn (Z.to_nat k) d) = k) by (apply zlen_firstn; lia).
  assert (N1 : firstn (Z.to_nat k) d <> []) by (intros X; rewrite X in L1; cbn in L1; lia).
  destruct (write_req addr _ dev N1 ltac:(lia)) as (A & C & T & EP & _). unfold cfg_req in *.
  destruct (deliver_other rd wr tg f dev _ _ N C EP T (or_intror eq_refl)) as (c & Q & S). rewrite Q. cbn [bind]. apply IH.
Qed.

Lemma host_read rd wr ms tg crs dev addr n f : In (rd, wr, ms) cfg_kinds -> 0 <= n -> at_id dev f ->
  (forall r, addr / 4 <= r <= (addr + n - 1) / 4 -> readable rd f r) ->
  exists d, config_read (cfg_deliver rd wr tg) crs dev addr n f = Ok (if n =? 0 then f else with_id dev f, d) /\ zlen d = n /\
    forall k, 0 <= k < n -> cfg_byte rd f (addr + k) = Some (nth (Z.to_nat k) d 0).
Proof.
  intros W H I R. unfold config_read. destruct (config_read_ok rd wr ms tg crs dev W (Z.to_nat n) addr n [] f ltac:(lia) I R) as (d & -> & L & B).
  rewrite (at_id_eq dev f I). cbn [bind app]. exists (firstn (Z.to_nat n) d). split; [reflexivity|]. split; [apply zlen_firstn; lia|].
  intros k Hk. rewrite nth_firstn_lt by lia. apply B. exact Hk.
Qed.
Lemma host_write rd wr ms tg dev addr d f : In (rd, wr, ms) cfg_kinds -> at_id dev f -> bytes_ok d ->
  exists f', config_write (cfg_deliver rd wr tg) dev addr d f = Ok f' /\ (d <> [] -> f_id f' = dev) /\
    forall r v rw w1c exc, rd f r = Ok (Some v) -> ms f r = Some (rw, w1c, exc) ->
    exists v', rd f' r = Ok (Some v') /\ ms f' r = Some (rw, w1c, exc) /\
      (forall i, 0 <= i -> Z.testbit exc i = false -> Z.testbit v' i = host_bit rw w1c addr d r v i) /\
      (d = [] \/ 4 * r + 4 <= addr \/ addr + zlen d <= 4 * r -> v' = v).
Proof.
  intros W I BD. unfold config_write. destruct (config_write_ok rd wr ms tg dev W (length d) addr d f ltac:(unfold zlen; lia) I BD) as (f' & E & _ & P).
  exists f'. split; [exact E|]. split.
  - intros N. eapply config_write_id; [exact W|apply Z.le_refl|exact I|exact BD|exact E|].
    destruct d; [congruence|]. rewrite zlen_cons. pose proof (zlen_nonneg d). lia.
  - intros r v rw w1c exc R M. destruct (P r v rw w1c exc R M) as (v' & R' & M' & B & F). exists v'. repeat (split; [assumption|]).
    intros [->|O]; apply F; [left; reflexivity|right; exact O].
Qed.
Lemma host_read_other rd wr tg crs dev addr n f : 0 <= n -> device (f_id f) <> device dev \/ func (f_id f) <> func dev ->
  config_read (cfg_deliver rd wr tg) crs dev addr n f = Ok (f, repeat 0xff (Z.to_nat n)).
Proof.
  intros H N. unfold config_read. destruct (config_read_other rd wr tg crs dev f N (Z.to_nat n) addr n [] ltac:(lia)) as (k & -> & L).
  cbn [bind app]. do 2 f_equal. replace k with (Z.to_nat n + (k - Z.to_nat n))%nat by lia. rewrite repeat_app, firstn_app, repeat_length, Nat.sub_diag.
  cbn [firstn]. rewrite app_nil_r. rewrite firstn_all2 by (rewrite repeat_length; lia). reflexivity.
Qed.

(** ** The register writes of an access *)
Lemma with_own_id f : with_id (f_id f) f = f.
Proof. destruct f; reflexivity. Qed.
Lemma byte_of v j : 0 <= j -> (v / 2 ^ (8 * j)) mod 256 = Z.land (Z.shiftr v (8 * j)) 255.
Proof. intros H. rewrite Z.shiftr_div_pow2 by lia. change 255 with (Z.ones 8). rewrite Z.land_ones by lia. reflexivity. Qed.
Lemma byte_eq x y j : 0 <= j -> byte_ok y -> (forall i, 0 <= i < 8 -> Z.testbit x (8 * j + i) = Z.testbit y i) -> (x / 2 ^ (8 * j)) mod 256 = y.
Proof.
  intros Hj Y H. rewrite byte_of by lia. apply Z.bits_inj'. intros n Hn. rewrite Z.land_spec, Z.shiftr_spec by lia.
  change 255 with (Z.ones 8). rewrite Z.testbit_ones_nonneg by lia. destruct (Z.ltb_spec n 8).
  - rewrite andb_true_r, <- H by lia. f_equal. lia.
  - rewrite andb_false_r. symmetry. apply (testbit_high y 8); [exact Y|lia].
Qed.
Lemma lanes_chunk q m x be d : 0 <= m -> 1 <= zlen d -> m + zlen d <= 4 -> bytes_ok d ->
  (forall j, 0 <= j -> Z.testbit be j = (m <=? j) && (j <? m + zlen d)) ->
  (forall i, 0 <= i -> m <= i / 8 < m + zlen d -> Z.testbit x i = Z.testbit (nth (Z.to_nat (i / 8 - m)) d 0) (i mod 8)) ->
  lanes (q, x, be) = map (fun k => (4 * q + m + Z.of_nat k, nth k d 0)) (List.seq 0 (length d)).
Proof.
  intros Hm L1 L2 BD B X.
  assert (V : forall j, 0 <= j -> m <= j < m + zlen d -> (x / 2 ^ (8 * j)) mod 256 = nth (Z.to_nat (j - m)) d 0).
  { intros j Hj Hr. apply byte_eq; [lia| |].
    - apply Forall_nth; [exact BD|]. unfold zlen in *. lia.
    - intros i Hi. rewrite X by lia. replace ((8 * j + i) / 8) with j by lia. replace ((8 * j + i) mod 8) with i by lia. reflexivity. }
  clear X. unfold lanes. cbn [flat_map]. rewrite !B by lia. clear B BD.
  assert (G : forall j, 0 <= j -> (if (m <=? j) && (j <? m + zlen d) then [(4 * q + j, (x / 2 ^ (8 * j)) mod 256)] else []) =
    (if (m <=? j) && (j <? m + zlen d) then [(4 * q + j, nth (Z.to_nat (j - m)) d 0)] else [])).
  { intros j Hj. destruct (_ && _) eqn:E; [|reflexivity]. rewrite V by lia. reflexivity. }
  rewrite !G by lia. clear G V x be.
  assert (M : m = 0 \/ m = 1 \/ m = 2 \/ m = 3) by lia.
  assert (C : zlen d = 1 \/ zlen d = 2 \/ zlen d = 3 \/ zlen d = 4) by lia.
  assert (LE : length d = Z.to_nat (zlen d)) by (unfold zlen; lia). rewrite LE.
  destruct M as [-> | [-> | [-> | ->]]]; destruct C as [C|[C|[C|C]]]; rewrite C in *; try lia; clear;
    (match goal with |- _ = map _ (List.seq 0 ?n) => let n' := eval vm_compute in n in change n with n' end); cbn [List.seq map];
    repeat match goal with |- context [Z.to_nat ?n] => let n' := eval vm_compute in (Z.to_nat n) in change (Z.to_nat n) with n' end;
    cbn -[Z.mul]; rewrite <- ?Z.add_assoc; reflexivity.
Qed.
Lemma config_write_accesses rd wr ms tg dev : In (rd, wr, ms) cfg_kinds -> forall fuel addr d f, zlen d <= Z.of_nat fuel -> at_id dev f -> bytes_ok d ->
  exists ws, config_write_loop fuel (cfg_deliver rd wr tg) dev addr d f = Ok (write_all wr ws (if zlen d =? 0 then f else with_id dev f)) /\
    flat_map lanes ws = map (fun k => (addr + Z.of_nat k, nth k d 0)) (List.seq 0 (length d)) /\ Forall (fun w => lanes w <> []) ws.
Proof.
  intros W. pose proof (kinds_wr_id _ _ _ W) as WI.
  assert (NIL : forall (d : list Z), zlen d = 0 -> d = []) by (intros d L; destruct d; [reflexivity|rewrite zlen_cons in L; pose proof (zlen_nonneg d); lia]).
  induction fuel as [|fuel IH]; intros addr d f H I BD; pose proof (zlen_nonneg d) as LD.
  - rewrite (NIL d) by lia. exists []. split; [reflexivity|split; [reflexivity|constructor]].
  - cbn [config_write_loop]. destruct (0 <? zlen d) eqn:E; [|rewrite (NIL d) by lia; exists []; split; [reflexivity|split; [reflexivity|constructor]]].
    destruct (len_spec addr (zlen d) ltac:(lia)) as (K1 & K2 & K3). cbv zeta in *. set (k := Z.min (zlen d) (4 - addr mod 4)) in *. clearbody k.
    assert (S : ModelRegion.slice 0 k d = firstn (Z.to_nat k) d) by (unfold ModelRegion.slice; cbn [skipn Z.to_nat]; f_equal; lia). rewrite S. clear S.
    set (d1 := firstn (Z.to_nat k) d) in *. assert (L1 : zlen d1 = k) by (apply zlen_firstn; lia).
    assert (N1 : d1 <> []) by (intros X; rewrite X in L1; cbn in L1; lia). pose proof (bytes_ok_firstn (Z.to_nat k) d BD : bytes_ok d1) as BD1.
    destruct (deliver_write rd wr tg f dev addr d1 I N1 ltac:(lia) BD1) as (c & x & be & Q & _ & B1 & B2 & X).
    change (set_completer_id dev (set_requester_id id0 (set_fmt_type CFG_WRITE_1 tlp0))) with (cfg_req CFG_WRITE_1 dev).
    rewrite Q, (at_id_eq dev f I). cbn [bind]. clear Q. set (f1 := wr _ _ _ _).
    assert (I1 : f_id f1 = dev) by (unfold f1; rewrite WI; reflexivity).
    assert (F1 : with_id dev f1 = f1) by (rewrite <- I1; apply with_own_id).
    destruct (IH (addr + k) (skipn (Z.to_nat k) d) f1) as (ws & -> & LN & NE);
      [rewrite zlen_skipn by lia; lia|unfold at_id; rewrite I1; split; reflexivity|apply bytes_ok_skipn; exact BD|].
    exists ((addr / 4, x, be) :: ws). replace (zlen d =? 0) with false by lia. split; [|split].
    + cbn [write_all fold_left]. fold f1. rewrite F1. destruct (_ =? 0); reflexivity.
    + cbn [flat_map]. rewrite (lanes_chunk (addr / 4) (addr mod 4) x be d1) by (lia || assumption). rewrite LN.
      assert (LD1 : length d1 = Z.to_nat k) by (unfold zlen in L1; lia).
      assert (LDs : length (skipn (Z.to_nat k) d) = (length d - Z.to_nat k)%nat) by apply skipn_length.
      assert (KL : (Z.to_nat k <= length d)%nat) by (unfold zlen in *; lia).
      replace (List.seq 0 (length d)) with (List.seq 0 (length d1) ++ map (fun j => (Z.to_nat k + j)%nat) (List.seq 0 (length (skipn (Z.to_nat k) d)))).
      2:{ rewrite LD1, LDs. replace (length d) with (Z.to_nat k + (length d - Z.to_nat k))%nat at 2 by lia. rewrite seq_app. f_equal.
          generalize (length d - Z.to_nat k)%nat. generalize (Z.to_nat k) as a. intros a n.
          replace (0 + a)%nat with (a + 0)%nat by lia. generalize 0%nat as b. induction n as [|n IHn]; intros b; [reflexivity|].
          cbn [List.seq map]. f_equal. rewrite IHn. f_equal. lia. }
      rewrite map_app, map_map. f_equal.
      * apply map_ext_in. intros j J. apply in_seq in J. f_equal; [lia|]. unfold d1. rewrite nth_firstn_lt by lia. reflexivity.
      * apply map_ext_in. intros j J. f_equal; [lia|]. apply nth_skipn_add.
    + constructor; [|exact NE]. rewrite (lanes_chunk (addr / 4) (addr mod 4) x be d1) by (lia || assumption).
      destruct d1; [congruence|]. discriminate.
Qed.
Lemma host_accesses rd wr ms tg dev addr d f : In (rd, wr, ms) cfg_kinds -> at_id dev f -> bytes_ok d -> d <> [] ->
  exists ws, config_write (cfg_deliver rd wr tg) dev addr d f = Ok (write_all wr ws (with_id dev f)) /\
    flat_map lanes ws = map (fun k => (addr + Z.of_nat k, nth k d 0)) (List.seq 0 (length d)) /\ Forall (fun w => lanes w <> []) ws.
Proof.
  intros W I BD N. destruct (config_write_accesses rd wr ms tg dev W (length d) addr d f ltac:(unfold zlen; lia) I BD) as (ws & E & L).
  exists ws. split; [|exact L]. unfold config_write. rewrite E.
  destruct d; [congruence|]. rewrite zlen_cons. pose proof (zlen_nonneg d). replace (1 + zlen d =? 0) with false by lia. reflexivity.
Qed.
