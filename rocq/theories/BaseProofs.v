(** Lemmas about the shared vocabulary. *)
From Verif Require Export Base.

Ltac Zify.zify_post_hook ::= Z.div_mod_to_equations.

Lemma zlen_nonneg {A} (l : list A) : 0 <= zlen l.
Proof. unfold zlen. lia. Qed.
Lemma zlen_app {A} (a b : list A) : zlen (a ++ b) = zlen a + zlen b.
Proof. unfold zlen. rewrite app_length. lia. Qed.
Lemma zlen_cons {A} (x : A) l : zlen (x :: l) = 1 + zlen l.
Proof. unfold zlen. cbn [length]. lia. Qed.
Lemma zlen_nil {A} : zlen (@nil A) = 0. Proof. reflexivity. Qed.
Lemma zlen_zeros n : zlen (zeros n) = Z.of_nat n.
Proof. unfold zlen, zeros. rewrite repeat_length. lia. Qed.

Lemma bytes_okb_ok l : bytes_okb l = true <-> bytes_ok l.
Proof.
  unfold bytes_okb, bytes_ok. rewrite forallb_forall, Forall_forall.
  unfold byte_okb, byte_ok. split; intros H x Hx; specialize (H x Hx); lia.
Qed.

Lemma le_bytes_length n v : length (le_bytes n v) = n.
Proof. revert v. induction n as [|n IH]; intros v; cbn; [reflexivity|]. rewrite IH. reflexivity. Qed.
Lemma le_bytes_ok n v : bytes_ok (le_bytes n v).
Proof.
  revert v. induction n as [|n IH]; intros v; cbn [le_bytes]; constructor.
  - unfold byte_ok. lia.
  - apply IH.
Qed.
Lemma be_bytes_length n v : length (be_bytes n v) = n.
Proof. unfold be_bytes. rewrite rev_length. apply le_bytes_length. Qed.
Lemma be_bytes_ok n v : bytes_ok (be_bytes n v).
Proof. unfold be_bytes, bytes_ok. apply Forall_rev. apply le_bytes_ok. Qed.

Lemma from_le_bound l : bytes_ok l -> 0 <= from_le l < 256 ^ zlen l.
Proof.
  intros H. induction H as [|x l Hx Hl IH].
  - cbn. lia.
  - cbn [from_le]. rewrite zlen_cons, Z.pow_add_r by (pose proof (zlen_nonneg l); lia).
    unfold byte_ok in Hx. change (256 ^ 1) with 256. lia.
Qed.

Lemma from_le_le_bytes n v : 0 <= v < 256 ^ Z.of_nat n -> from_le (le_bytes n v) = v.
Proof.
  revert v. induction n as [|n IH]; intros v Hv.
  - cbn in *. lia.
  - cbn [le_bytes from_le]. rewrite IH.
    + lia.
    + rewrite Nat2Z.inj_succ, Z.pow_succ_r in Hv by lia. lia.
Qed.
Lemma le_bytes_from_le l : bytes_ok l -> le_bytes (length l) (from_le l) = l.
Proof.
  intros H. induction H as [|x l Hx Hl IH]; [reflexivity|].
  cbn [length le_bytes from_le]. unfold byte_ok in Hx. f_equal.
  - lia.
  - replace ((x + 256 * from_le l) / 256) with (from_le l) by lia. exact IH.
Qed.
Lemma from_be_be_bytes n v : 0 <= v < 256 ^ Z.of_nat n -> from_be (be_bytes n v) = v.
Proof. intros H. unfold from_be, be_bytes. rewrite rev_involutive. apply from_le_le_bytes; exact H. Qed.
Lemma be_bytes_from_be l : bytes_ok l -> be_bytes (length l) (from_be l) = l.
Proof.
  intros H. unfold from_be, be_bytes.
  rewrite <- (rev_length l). rewrite le_bytes_from_le by (apply Forall_rev; exact H).
  apply rev_involutive.
Qed.
Lemma from_be_bound l : bytes_ok l -> 0 <= from_be l < 256 ^ zlen l.
Proof.
  intros H. unfold from_be. replace (zlen l) with (zlen (rev l)) by (unfold zlen; rewrite rev_length; reflexivity).
  apply from_le_bound. apply Forall_rev. exact H.
Qed.

Lemma struct_pack_be_ok n v : 0 <= v < 256 ^ Z.of_nat n -> struct_pack_be n v = Ok (be_bytes n v).
Proof. intros H. unfold struct_pack_be. destruct (_ && _) eqn:E; [reflexivity|]. lia. Qed.
Lemma struct_pack_le_ok n v : 0 <= v < 256 ^ Z.of_nat n -> struct_pack_le n v = Ok (le_bytes n v).
Proof. intros H. unfold struct_pack_le. destruct (_ && _) eqn:E; [reflexivity|]. lia. Qed.

(** Unpacking at the offset where a packed integer sits. *)
Lemma struct_unpack_be_at n pre post v :
  0 <= v < 256 ^ Z.of_nat n ->
  struct_unpack_be n (pre ++ be_bytes n v ++ post) (length pre) = Ok v.
Proof.
  intros H. unfold struct_unpack_be.
  destruct (_ <=? _)%nat eqn:E.
  - rewrite skipn_app, skipn_all, Nat.sub_diag. cbn [skipn app].
    rewrite <- (be_bytes_length n v) at 1. rewrite firstn_app, firstn_all, Nat.sub_diag.
    cbn [firstn]. rewrite app_nil_r, from_be_be_bytes by exact H. reflexivity.
  - apply Nat.leb_gt in E. rewrite !app_length, be_bytes_length in E. lia.
Qed.
Lemma struct_unpack_le_at n pre post v :
  0 <= v < 256 ^ Z.of_nat n ->
  struct_unpack_le n (pre ++ le_bytes n v ++ post) (length pre) = Ok v.
Proof.
  intros H. unfold struct_unpack_le.
  destruct (_ <=? _)%nat eqn:E.
  - rewrite skipn_app, skipn_all, Nat.sub_diag. cbn [skipn app].
    rewrite <- (le_bytes_length n v) at 1. rewrite firstn_app, firstn_all, Nat.sub_diag.
    cbn [firstn]. rewrite app_nil_r, from_le_le_bytes by exact H. reflexivity.
  - apply Nat.leb_gt in E. rewrite !app_length, le_bytes_length in E. lia.
Qed.

Lemma bind_ok {A B} (x : res A) (f : A -> res B) b :
  bind x f = Ok b -> exists a, x = Ok a /\ f a = Ok b.
Proof. destruct x as [a|e]; cbn; intros H; [exists a; auto|discriminate]. Qed.
Lemma Ok_inj {A} (a b : A) : Ok a = Ok b -> a = b.
Proof. intros H. injection H. auto. Qed.
Lemma zeros_length n : length (zeros n) = n. Proof. apply repeat_length. Qed.

Lemma bytes_ok_firstn n l : bytes_ok l -> bytes_ok (firstn n l).
Proof.
  unfold bytes_ok. rewrite !Forall_forall. intros H x I. apply H.
  rewrite <- (firstn_skipn n l). apply in_or_app. left. exact I.
Qed.
Lemma bytes_ok_skipn n l : bytes_ok l -> bytes_ok (skipn n l).
Proof.
  unfold bytes_ok. rewrite !Forall_forall. intros H x I. apply H.
  rewrite <- (firstn_skipn n l). apply in_or_app. right. exact I.
Qed.
