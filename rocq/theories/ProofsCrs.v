(** Waiting for functions that are not ready (C69). *)
From Verif Require Import Base BaseProofs ModelUtils ModelTlp ModelHost ModelPci ModelCrs SpecCrs ProofsHost.

Section Crs.
Context {S : Type} (op : S -> tlp -> res (S * list tlp)) (crs : option bool) (wait : Z -> S -> S) (now : S -> Z) (dev : pcie_id) (r acc v : Z).
Definition req0 : tlp := snd (set_addr_be 0 4 (cfg_req CFG_READ_1 dev)).
Lemma req0_asks : asks dev req0.
Proof. destruct (read_req 0 4 dev ltac:(lia) ltac:(reflexivity)) as (A & C & T & _). split; [exact T|]. split; [exact C|]. exact A. Qed.
Lemma vendor_is s s' cs a b c d : op s req0 = Ok (s', cs) -> config_read_data crs req0 cs = Ok [a; b; c; d] -> vendor_dword op crs dev s = Ok (s', from_le [a; b; c; d]).
Proof.
  intros O D. unfold vendor_dword, cfg_read_dword, config_read. change (Z.to_nat 4) with 4%nat. cbn [config_read_loop]. change (0 <? 4) with true. cbv iota zeta. change (0 mod 4) with 0. change (Z.min 4 (4 - 0)) with 4.
  fold (cfg_req CFG_READ_1 dev). fold req0. rewrite O. cbn [bind]. rewrite D. cbn [bind]. reflexivity.
Qed.
Context (Sl : slow op wait now dev r acc v).
Lemma early s : now s < r -> exists s', vendor_dword op crs dev s = Ok (s', match crs with Some true => 0xffff0001 | _ => 0xffffffff end) /\ now s <= now s' <= now s + acc.
Proof.
  intros H. destruct (sl_early _ _ _ _ _ _ _ Sl s req0 req0_asks H) as (s' & c & O & St & B). exists s'. split; [|exact B].
  assert (X : config_read_data crs req0 [c] = Ok (if match crs with Some true => true | _ => false end then [1; 0; 255; 255] else [255; 255; 255; 255])).
  { unfold config_read_data. rewrite St, (proj2 (proj2 req0_asks)). destruct crs as [[]|]; reflexivity. }
  replace (match crs with Some true => 0xffff0001 | _ => 0xffffffff end) with (if match crs with Some true => true | _ => false end then 0xffff0001 else 0xffffffff) by (destruct crs as [[]|]; reflexivity).
  destruct (match crs with Some true => true | _ => false end); exact (vendor_is s s' [c] _ _ _ _ O X).
Qed.
Lemma late s : r <= now s -> exists s', vendor_dword op crs dev s = Ok (s', v) /\ now s <= now s' <= now s + acc.
Proof.
  intros H. destruct (sl_late _ _ _ _ _ _ _ Sl s req0 req0_asks H) as (s' & c & O & St & L & D & B). exists s'. split; [|exact B]. cbn [map] in D.
  assert (X : config_read_data crs req0 [c] = Ok (data c)).
  { unfold config_read_data. rewrite St. change (SC =? CRS) with false. cbn [andb]. change (negb (SC =? SC)) with false. cbv iota. rewrite L. reflexivity. }
  rewrite D in X. rewrite (vendor_is s s' [c] _ _ _ _ O X). f_equal. f_equal. pose proof (sl_value _ _ _ _ _ _ _ Sl) as V. clear - V. cbn [from_le]. change (2 ^ (8 * 0)) with 1. change (2 ^ (8 * 1)) with 256. change (2 ^ (8 * 2)) with 65536. change (2 ^ (8 * 3)) with 16777216. change (2 ^ 32) with 4294967296 in V. lia.
Qed.
Lemma waits n : forall d s s0, (1 <= n)%nat -> d * 2 ^ (Z.of_nat n - 1) = 10240 -> (n <= 11)%nat -> crs = Some true -> v <> 0xffff0001 -> now s0 + d - 10 <= now s <= now s0 + d - 10 + (11 - Z.of_nat n) * acc -> d = 10 \/ now s0 + d - 10 < r ->
  exists s' b, wait_loop op crs wait n dev d 0xffff0001 s = Ok (s', b) /\ (b = true -> r <= now s' /\ (now s0 < r -> now s' <= now s0 + 2 * (r - now s0) + 10 + 10 * acc)) /\ (b = false -> now s0 + 10230 < r).
Proof.
  induction n as [|n IH]; intros d s s0 Hn Hd H11 K V B P; [lia|]. cbn [wait_loop]. change (0xffff0001 =? 0xffff0001) with true. cbv iota. destruct n as [|n].
  { change (2 ^ (Z.of_nat 1 - 1)) with 1 in Hd. replace (10000 <? d) with true by lia. exists s, false. split; [reflexivity|]. split; [discriminate|]. intros _. lia. }
  assert (D2 : d * 2 * 2 ^ (Z.of_nat (Datatypes.S n) - 1) = 10240). { replace (Z.of_nat (Datatypes.S (Datatypes.S n)) - 1) with (Z.succ (Z.of_nat (Datatypes.S n) - 1)) in Hd by lia. rewrite Z.pow_succ_r in Hd by lia. lia. }
  assert (Dd : 0 < d <= 5120). { assert (0 < 2 ^ (Z.of_nat (Datatypes.S n) - 1)) by (apply Z.pow_pos_nonneg; lia). nia. }
  replace (10000 <? d) with false by lia. pose proof (sl_wait _ _ _ _ _ _ _ Sl d s) as W. destruct (Z.lt_ge_cases (now (wait d s)) r) as [Lt|Ge].
  - destruct (early _ Lt) as (s' & E & B'). rewrite K in E at 2. rewrite E. cbn [bind]. apply (IH (d * 2) s' s0); auto; lia.
  - destruct (late _ Ge) as (s' & E & B'). rewrite E. cbn [bind wait_loop]. destruct (Z.eqb_spec v 0xffff0001); [contradiction|]. exists s', true. split; [reflexivity|]. split; [|discriminate]. intros _. split; [lia|]. intros N.
    assert (acc >= 0) by lia. assert (10 * acc >= (12 - Z.of_nat (Datatypes.S (Datatypes.S n))) * acc) by nia. nia.
Qed.
Lemma waits_all s : crs = Some true -> v <> 0xffff0001 ->
  exists s' b, wait_crs op crs wait dev s = Ok (s', b) /\ (b = true -> r <= now s' /\ (now s < r -> now s' <= now s + 2 * (r - now s) + 10 + 10 * acc)) /\ (b = false -> now s + 10230 < r).
Proof. intros K V. apply (waits 11 10 s s); auto; lia. Qed.
Lemma probes s : crs = Some true -> v <> 0 -> v <> 0xffffffff -> v <> 0xffff0000 -> v <> 0x0000ffff -> v <> 0xffff0001 ->
  exists s' b, probe op crs wait dev s = Ok (s', b) /\ (b = true -> r <= now s' /\ now s' <= now s + 2 * Z.max 0 (r - now s) + 10 + 11 * acc) /\ (b = false -> now s + 10230 < r).
Proof.
  intros K V1 V2 V3 V4 V5. unfold probe. destruct (Z.lt_ge_cases (now s) r) as [Lt|Ge].
  - destruct (early _ Lt) as (s1 & E & B). rewrite K in E at 2. rewrite E. cbn [bind]. change ((0xffff0001 =? 0) || (0xffff0001 =? 0xffffffff) || (0xffff0001 =? 0xffff0000) || (0xffff0001 =? 0x0000ffff)) with false. change (0xffff0001 =? 0xffff0001) with true. cbv iota.
    destruct (waits_all s1 K V5) as (s' & b & W & T & F). exists s', b. split; [exact W|]. split; [|intros X; specialize (F X); lia]. intros X. destruct (T X) as [T1 T2]. split; [exact T1|]. destruct (Z.lt_ge_cases (now s1) r); [specialize (T2 ltac:(assumption)); lia|].
    clear T2. subst b. unfold wait_crs in W. cbn [wait_loop] in W. change (0xffff0001 =? 0xffff0001) with true in W. change (10000 <? 10) with false in W. cbv iota in W. pose proof (sl_wait _ _ _ _ _ _ _ Sl 10 s1) as W1.
    destruct (late (wait 10 s1) ltac:(lia)) as (s2 & E2 & B2). rewrite E2 in W. cbn [bind] in W. destruct (Z.eqb_spec v 0xffff0001); [contradiction|]. injection W as <-. lia.
  - destruct (late _ Ge) as (s1 & E & B). rewrite E. cbn [bind]. rewrite (proj2 (Z.eqb_neq v 0) V1), (proj2 (Z.eqb_neq v _) V2), (proj2 (Z.eqb_neq v _) V3), (proj2 (Z.eqb_neq v _) V4), (proj2 (Z.eqb_neq v _) V5). cbn [orb]. exists s1, true. split; [reflexivity|]. split; [|discriminate]. intros _. split; lia.
Qed.
Lemma invisible s : crs <> Some true -> now s < r -> exists s', probe op crs wait dev s = Ok (s', false).
Proof. intros K Lt. destruct (early _ Lt) as (s1 & E & _). unfold probe. rewrite E. exists s1. destruct crs as [[]|]; [contradiction| |]; reflexivity. Qed.
Lemma probes_fn s : crs = Some true -> now s < r -> exists s', probe_fn op crs dev s = Ok (s', Some (1, 0xffff)).
Proof. intros K Lt. destruct (early _ Lt) as (s1 & E & _). rewrite K in E at 2. unfold probe_fn. rewrite E. exists s1. reflexivity. Qed.
End Crs.

(** [config_write] does not look at the completions. *)
Lemma write_blind {S} (op op' : S -> tlp -> res (S * list tlp)) dev : same_effect op op' -> forall addr d s, config_write op dev addr d s = config_write op' dev addr d s.
Proof.
  intros E addr d s. unfold config_write. generalize (length d). intros n. revert addr d s. induction n as [|n IH]; intros addr d s; [reflexivity|]. cbn [config_write_loop].
  destruct (0 <? zlen d); [|reflexivity]. cbv zeta.
  match goal with |- context [op s ?t] => destruct (E s t) as (s' & a & a' & -> & ->) end. cbn [bind]. apply IH.
Qed.
