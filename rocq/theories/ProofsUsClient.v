(** A request with a tag of the user out of range that waits for credits. *)
From Verif Require Import Base BaseProofs ModelUtils ModelTlp ModelFrames ModelUs ModelTags ModelChan ModelUsDev SpecUsDev ProofsUsDev ProofsUsWit.
From Coq Require Import Lia.

Definition late_frame : us_frame := Eval vm_compute in wframe (wreq IO_WRITE 1 200 [1; 2; 3; 4]).
Definition late_req : tlp_us := Eval vm_compute in match unpack_us_rq false late_frame with Ok u => u | Err _ => tlp_us0 end.
Definition stray : tlp := wcpld 9 1 [0; 0; 0; 0].
Definition stray_us : tlp_us := Eval vm_compute in match judge None stray with Ok (u, _) => u | Err _ => tlp_us0 end.
Lemma late_unpack : unpack_us_rq false late_frame = Ok late_req. Proof. vm_compute. reflexivity. Qed.
Lemma late_np : is_nonposted (u_tlp late_req) = Ok true. Proof. reflexivity. Qed.
Lemma late_credits : us_credits late_req = 1. Proof. reflexivity. Qed.
Lemma late_tag : tag (u_tlp late_req) = 200. Proof. reflexivity. Qed.
Lemma stray_judge : judge None stray = Ok (stray_us, false). Proof. vm_compute. reflexivity. Qed.
Lemma late_queued co s : 1 <= co_cpld co -> quiet (co_cpld co) s ->
  exists s', urun (io_opt co) [LFrame late_frame; LNp] s = Ok s' /\ w_b s' = BCredit late_req /\ (forall t, w_active s' t = None) /\ w_credit s' = co_cpld co /\ w_cfg s' = wcfg false.
Proof.
  intros CD []. set (s1 := set_w_a AIdle (set_w_np [late_req] (note (EAccept late_req) s))).
  assert (D : rq_frame (io_opt co) late_frame s = Ok s1).
  { unfold rq_frame. change (o_parity (io_opt co)) with false. rewrite late_unpack. cbn [bind].
    change (discontinue late_req) with false. change (rid_enable late_req) with true. cbv iota zeta. rewrite late_np. cbn [bind].
    replace (w_credit (note (EAccept late_req) s) + us_credits late_req <=? co_cpld (o_core (io_opt co))) with false by (rewrite late_credits; cbn [note w_credit io_opt o_core]; rewrite qu_credit; lia).
    rewrite andb_false_r. cbn [andb]. unfold np_put. replace (w_np (note (EAccept late_req) s)) with (@nil tlp_us) by (symmetry; exact qu_np). reflexivity. }
  rewrite (urun_cons _ _ _ _ s1) by (cbn [ustep]; rewrite qu_a; exact D).
  assert (B1 : w_b s1 = BIdle) by exact qu_b. assert (N1 : w_np s1 = [late_req]) by reflexivity. assert (C1 : w_credit s1 = co_cpld co) by exact qu_credit.
  rewrite (urun_cons _ _ _ _ (set_w_b (BCredit late_req) (set_w_rel false (set_w_deq true (set_w_np [] s1))))).
  - eexists. split; [reflexivity|]. cbn [set_w_b set_w_rel set_w_deq set_w_np w_b w_active w_np w_credit w_cfg]. repeat split; auto.
  - cbn [ustep]. rewrite B1, N1. unfold np_loop.
    replace (w_credit (set_w_deq true (set_w_np [] s1)) + us_credits late_req >? co_cpld (o_core (io_opt co))) with true
      by (rewrite late_credits; cbn [set_w_deq set_w_np w_credit io_opt o_core]; rewrite C1; lia). reflexivity.
Qed.
Lemma stray_arrives co s : w_b s = BCredit late_req -> (forall t, w_active s t = None) -> w_cfg s = wcfg false -> 1 <= w_credit s ->
  exists s', ustep (io_opt co) (LCpl stray) s = Ok s' /\ w_b s' = BCredit late_req /\ (forall t, w_active s' t = None) /\ w_credit s' = w_credit s - 1 /\ w_cfg s' = wcfg false /\ w_rel s' = true.
Proof.
  intros B A G C. cbn [ustep]. change (fmt_type stray) with (Ok CPL_DATA : res tlp_type). cbn [bind]. change (type_in CPL_DATA cpl_types) with true. cbv iota.
  unfold rx_cpl. rewrite G. cbn [wcfg g_ids]. change (existsb (id_eqb (requester_id stray)) [wid]) with true. cbv iota.
  assert (H : get_active s (tag stray) = Ok None) by (transitivity (Ok (w_active s 9) : res (option tlp_us)); [reflexivity|rewrite A; reflexivity]).
  rewrite H. cbn [bind]. rewrite stray_judge. cbn [bind]. cbv zeta iota.
  change (us_credits stray_us) with 1.
  eexists. split; [reflexivity|].
  match goal with |- context [if ?b then _ else _] => destruct b end; cbn [w_cfg w_b w_active w_credit w_rel note set_w_rel set_w_credit set_w_avail set_w_buf set_w_lerr];
  (split; [exact B|]; split; [exact A|]; split; [lia|]; split; [exact G|reflexivity]).
Qed.
Lemma late_goes co s : 32 <= co_tag_count co -> w_b s = BCredit late_req -> (forall t, w_active s t = None) -> w_credit s + 1 <= co_cpld co -> w_cfg s = wcfg false -> w_rel s = true ->
  exists s', ustep (io_opt co) LCredit s = Ok s' /\ w_log s' = w_log s ++ [EIssue late_req 32].
Proof.
  intros T B A C G R. cbn [ustep]. rewrite B, R. unfold np_loop.
  replace (w_credit s + us_credits late_req >? co_cpld (o_core (io_opt co))) with false by (rewrite late_credits; cbn [io_opt o_core]; lia).
  change (negb (o_client (io_opt co))) with false. cbn [andb]. unfold bus_master. rewrite G.
  change (nth_error (g_bme (wcfg false)) (Z.to_nat (func (requester_id (u_tlp late_req))))) with (Some true). cbn [bind negb].
  unfold launch. change (o_client (io_opt co)) with true. cbv iota. cbn [bind]. unfold get_active. rewrite late_tag. cbn [Z.leb Z.ltb Z.compare Pos.compare Pos.compare_cont andb bind]. rewrite A. cbn [py_assert bind].
  change (tlp_check (tlp_copy (u_tlp late_req))) with (Ok true). cbn [bind py_assert].
  eexists. split; [reflexivity|]. cbn [w_log note set_w_b set_w_credit set_w_avail set_w_active]. do 3 f_equal.
  unfold tag_range. cbn [w_cfg set_w_credit set_w_avail set_w_active io_opt o_core]. rewrite G. cbn [wcfg g_ext]. lia.
Qed.
Theorem client_range co : 32 <= co_tag_count co -> 1 <= co_cplh co -> 1 <= co_cpld co -> exists ls s u n,
  urun (io_opt co) ls (udev0 (wcfg false)) = Ok s /\ In (EIssue u n) (w_log s) /\ needs_answer (u_tlp u) = true /\ n < tag (u_tlp u).
Proof.
  intros CT CH CD. destruct (io_many co (Z.to_nat (co_cpld co)) CH CD ltac:(lia)) as (s & R & Q). rewrite Z2Nat.id in Q by lia.
  destruct (late_queued co s CD Q) as (s1 & R1 & B1 & A1 & C1 & G1).
  destruct (stray_arrives co s1 B1 A1 G1 ltac:(lia)) as (s2 & R2 & B2 & A2 & C2 & G2 & L2).
  destruct (late_goes co s2 CT B2 A2 ltac:(lia) G2 L2) as (s3 & R3 & L3).
  exists (concat (repeat io_round (Z.to_nat (co_cpld co))) ++ [LFrame late_frame; LNp] ++ [LCpl stray; LCredit]), s3, late_req, 32.
  split; [|split; [rewrite L3; apply in_or_app; right; left; reflexivity|split; reflexivity]].
  rewrite urun_app, R. cbn [bind]. rewrite urun_app, R1. cbn [bind]. rewrite (urun_cons _ _ _ _ s2) by exact R2. rewrite (urun_cons _ _ _ _ s3) by exact R3. reflexivity.
Qed.
