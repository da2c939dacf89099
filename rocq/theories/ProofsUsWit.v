(** Executions of the UltraScale device models that the refuted properties need. *)
From Verif Require Import Base BaseProofs ModelUtils ModelTlp ModelFrames ModelUs ModelTags ModelChan ModelUsDev SpecUsDev ProofsUsDev.
From Coq Require Import Lia.

Definition wid : pcie_id := mkId 1 0 0.
Definition wreq (ty : tlp_type) (len tg : Z) (d : list Z) : tlp_us :=
  mkTlpUs (set_data d (set_tag tg (set_first_be 15 (set_last_be (if len =? 1 then 0 else 15) (set_address 0x1000 (set_tlen len
    (set_requester_id wid (set_fmt_type ty tlp0)))))))) 0 0 false true false 0 0 0.
Definition wframe (u : tlp_us) : us_frame := match pack_us_rq u with Ok f => f | Err _ => mkUs [] [] [] 0 0 false 0 end.
Definition wcfg (ext : bool) : ucfg := mkUcfg 1 [wid] [true] ext.
(** The completion without data that ends request [tg], and one with data *)
Definition wcpl (tg : Z) : tlp := set_tag tg (set_requester_id wid (set_fmt_type CPL tlp0)).
Definition wcpld (tg : Z) (len : Z) (d : list Z) : tlp :=
  set_data d (set_byte_count (4 * len) (set_tlen len (set_tag tg (set_requester_id wid (set_fmt_type CPL_DATA tlp0))))).

(** ** IO writes use up the credits *)
Definition io_frame : us_frame := Eval vm_compute in wframe (wreq IO_WRITE 1 0 [1; 2; 3; 4]).
Definition io_req : tlp_us := Eval vm_compute in match unpack_us_rq false io_frame with Ok u => u | Err _ => tlp_us0 end.
Definition io_opt (co : core) : uopt := mkUopt co true false.
Definition io_round : list ulabel := [LFrame io_frame; LSentA; LSeqOut; LCpl (wcpl 0); LOut; LOutDone].
Record quiet (k : Z) (s : udev) : Prop := {
  qu_cfg : w_cfg s = wcfg false; qu_a : w_a s = AIdle; qu_b : w_b s = BIdle; qu_r : w_r s = RIdle; qu_np : w_np s = [];
  qu_act : forall t, w_active s t = None; qu_credit : w_credit s = k; qu_hc : w_hc s = 0; qu_dc : w_dc s = 0; qu_rcq : w_rcq s = [];
  qu_seqs : w_seqs s = [] }.
Lemma io_unpack : unpack_us_rq false io_frame = Ok io_req.
Proof. vm_compute. reflexivity. Qed.
Lemma io_credits : us_credits io_req = 1.
Proof. vm_compute. reflexivity. Qed.
Lemma io_np : is_nonposted (u_tlp io_req) = Ok true.
Proof. vm_compute. reflexivity. Qed.
Lemma io_check : tlp_check (tlp_copy (u_tlp io_req)) = Ok true.
Proof. vm_compute. reflexivity. Qed.
Definition io_out : tlp_us := Eval vm_compute in match judge (Some io_req) (wcpl 0) with Ok (u, _) => u | Err _ => tlp_us0 end.
Lemma io_judge : judge (Some io_req) (wcpl 0) = Ok (io_out, true).
Proof. vm_compute. reflexivity. Qed.
Lemma io_pack : exists f, pack_us_rc io_out = Ok f.
Proof. eexists. vm_compute. reflexivity. Qed.

Lemma launch_io co s : (forall t, w_active s t = None) ->
  launch (io_opt co) io_req s = Ok (io_req, note (EIssue io_req (tag_range (io_opt co) s)) (set_w_credit (w_credit s + 1)
    (set_w_avail (available (g_ext (w_cfg s)) (fset 0 (Some io_req) (w_active s))) (set_w_active (fset 0 (Some io_req) (w_active s)) s)))).
Proof.
  intros A. unfold launch. cbn [io_opt o_client bind]. unfold get_active. change (tag (u_tlp io_req)) with 0. cbn [Z.leb Z.ltb Z.compare andb bind]. rewrite A.
  cbn [py_assert bind]. rewrite io_check. cbn [py_assert bind]. rewrite io_credits. reflexivity.
Qed.
Record busy (k : Z) (s : udev) : Prop := {
  bu_cfg : w_cfg s = wcfg false; bu_a : w_a s = AIdle; bu_b : w_b s = BIdle; bu_r : w_r s = RIdle; bu_np : w_np s = [];
  bu_act : forall t, w_active s t = if t =? 0 then Some io_req else None; bu_credit : w_credit s = k; bu_hc : w_hc s = 0; bu_dc : w_dc s = 0; bu_rcq : w_rcq s = [];
  bu_seqs : w_seqs s = [] }.
Definition io_issued (co : core) (s : udev) : udev :=
  note (EIssue io_req (tag_range (io_opt co) s)) (set_w_credit (w_credit s + 1)
    (set_w_avail (available (g_ext (w_cfg s)) (fset 0 (Some io_req) (w_active s))) (set_w_active (fset 0 (Some io_req) (w_active s)) s))).
Lemma io_direct co k s : quiet k s -> 0 <= k < co_cpld co -> rq_frame (io_opt co) io_frame s =
  ('(u, s) <- launch (io_opt co) io_req (note (EAccept io_req) s) ;; Ok (set_w_a (ASend u) s)).
Proof.
  intros [] K. unfold rq_frame. change (o_parity (io_opt co)) with false. rewrite io_unpack. cbn [bind].
  change (discontinue io_req) with false. change (rid_enable io_req) with true. cbv iota zeta. rewrite io_np. cbn [bind].
  replace (match w_np (note (EAccept io_req) s) with [] => true | _ => false end) with true by (cbn [note w_np]; rewrite qu_np0; reflexivity).
  replace (w_credit (note (EAccept io_req) s) + us_credits io_req <=? co_cpld (o_core (io_opt co))) with true by (rewrite io_credits; cbn [note w_credit io_opt o_core]; rewrite qu_credit0; lia).
  change (o_client (io_opt co)) with true. cbn [andb orb].
  replace (bus_master io_req (note (EAccept io_req) s)) with (Ok true : res bool) by (unfold bus_master; cbn [note w_cfg]; rewrite qu_cfg0; reflexivity).
  cbn [bind negb].
  replace (tag (u_tlp io_req) <? (if g_ext (w_cfg (note (EAccept io_req) s)) then co_tag_max (o_core (io_opt co)) else 32)) with true by (cbn [note w_cfg]; rewrite qu_cfg0; reflexivity).
  cbn [py_assert bind]. reflexivity.
Qed.
Lemma urun_cons o l ls s s' : ustep o l s = Ok s' -> urun o (l :: ls) s = urun o ls s'.
Proof. intros H. cbn [urun]. now rewrite H. Qed.
Lemma io_enter co k s : 0 <= k < co_cpld co -> quiet k s -> exists s', urun (io_opt co) [LFrame io_frame; LSentA; LSeqOut] s = Ok s' /\ busy (k + 1) s'.
Proof.
  intros K Q. pose proof (io_direct co k s Q K) as D. destruct Q.
  rewrite (launch_io co (note (EAccept io_req) s)) in D by (intros t; apply qu_act0). fold (io_issued co (note (EAccept io_req) s)) in D. cbn [bind] in D.
  set (s1 := io_issued co (note (EAccept io_req) s)) in *.
  rewrite (urun_cons _ _ _ _ (set_w_a (ASend io_req) s1)) by (cbn [ustep]; rewrite qu_a0; exact D).
  rewrite (urun_cons _ _ _ _ (set_w_a AIdle (set_w_seqs (w_seqs s1 ++ [seq_num io_req]) (set_w_a (ASend io_req) s1)))) by reflexivity.
  assert (Q1 : w_seqs s1 = []) by exact qu_seqs0.
  rewrite (urun_cons _ _ _ _ (note (ESeq (seq_num io_req)) (set_w_seqs [] (set_w_a AIdle (set_w_seqs (w_seqs s1 ++ [seq_num io_req]) (set_w_a (ASend io_req) s1))))))
    by (cbn [ustep set_w_a set_w_seqs w_seqs]; rewrite Q1; reflexivity).
  eexists. split; [reflexivity|].
  constructor; cbn [w_cfg w_a w_b w_r w_np w_active w_credit w_hc w_dc w_rcq w_seqs note set_w_seqs set_w_a]; try assumption; try reflexivity; unfold s1, io_issued;
    cbn [w_cfg w_a w_b w_r w_np w_active w_credit w_hc w_dc w_rcq w_seqs note set_w_seqs set_w_a set_w_credit set_w_avail set_w_active]; auto.
  - intros t. unfold fset. now rewrite qu_act0.
  - rewrite qu_credit0. reflexivity.
Qed.
Lemma io_answer co k s : 1 <= co_cplh co -> 1 <= co_cpld co -> 0 <= k -> busy k s -> exists s', ustep (io_opt co) (LCpl (wcpl 0)) s = Ok s' /\
  w_cfg s' = wcfg false /\ w_a s' = AIdle /\ w_b s' = BIdle /\ w_r s' = RIdle /\ w_np s' = [] /\
    (forall t, w_active s' t = None) /\ w_credit s' = k /\ w_hc s' = 1 /\ w_dc s' = 1 /\ w_rcq s' = [io_out] /\ w_seqs s' = [].
Proof.
  intros CH CD K []. cbn [ustep].
  change (fmt_type (wcpl 0)) with (Ok CPL : res tlp_type). cbn [bind]. change (type_in CPL cpl_types) with true. cbv iota.
  unfold rx_cpl. rewrite bu_cfg0. cbn [wcfg g_ids]. change (existsb (id_eqb (requester_id (wcpl 0))) [wid]) with true. cbv iota.
  unfold get_active. change (tag (wcpl 0)) with 0. cbn [Z.leb Z.ltb Z.compare andb bind]. rewrite bu_act0. cbn [Z.eqb bind]. rewrite io_judge. cbn [bind]. cbv zeta iota.
  change (us_credits io_out) with 0. cbn [set_w_active set_w_rel set_w_credit set_w_avail set_w_buf w_hc w_dc w_rcq w_lerr w_r w_cfg w_active w_credit o_core io_opt].
  rewrite bu_hc0, bu_dc0, bu_rcq0. replace (0 + 1 <=? co_cplh co) with true by lia. replace (0 + 0 + 1 <=? co_cpld co) with true by lia. cbn [andb app].
  eexists. split; [reflexivity|].
  cbn [w_cfg w_a w_b w_r w_np w_active w_credit w_hc w_dc w_rcq w_seqs note set_w_rel set_w_credit set_w_avail set_w_active set_w_buf]. repeat (split; [assumption || reflexivity|]).
  split; [|repeat split; first [lia|assumption]]. intros t. unfold fset. rewrite bu_act0. destruct (t =? 0); reflexivity.
Qed.
Lemma io_once co k s : 1 <= co_cplh co -> 1 <= co_cpld co -> 0 <= k < co_cpld co -> quiet k s -> exists s', urun (io_opt co) io_round s = Ok s' /\ quiet (k + 1) s'.
Proof.
  intros CH CD K Q. destruct (io_enter co k s K Q) as (s1 & R1 & B). destruct (io_answer co (k + 1) s1 CH CD ltac:(lia) B) as (s2 & R2 & Q1 & Q2 & Q3 & Q4 & Q5 & Q6 & Q7 & Q8 & Q9 & Q10 & Q11).
  change io_round with ([LFrame io_frame; LSentA; LSeqOut] ++ [LCpl (wcpl 0); LOut; LOutDone]). rewrite urun_app, R1. cbn [bind urun]. rewrite R2. cbn [bind ustep]. rewrite Q4, Q10.
  destruct io_pack as [f ->]. cbn [bind set_w_r w_r set_w_buf note w_hc w_dc w_rcq]. rewrite Q8, Q9. eexists. split; [reflexivity|].
  constructor; cbn [w_cfg w_a w_b w_r w_np w_active w_credit w_hc w_dc w_rcq w_seqs note set_w_r set_w_buf]; auto.
Qed.
Lemma io_many co n : 1 <= co_cplh co -> 1 <= co_cpld co -> (Z.of_nat n <= co_cpld co) ->
  exists s, urun (io_opt co) (concat (repeat io_round n)) (udev0 (wcfg false)) = Ok s /\ quiet (Z.of_nat n) s.
Proof.
  intros CH CD. induction n as [|n IH]; intros N.
  - exists (udev0 (wcfg false)). split; [reflexivity|]. constructor; reflexivity.
  - destruct IH as (s & R & Q); [lia|]. destruct (io_once co (Z.of_nat n) s CH CD ltac:(lia) Q) as (s' & R' & Q').
    exists s'. replace (Z.of_nat (S n)) with (Z.of_nat n + 1) by lia. split; [|exact Q'].
    replace (S n) with (n + 1)%nat by lia. rewrite repeat_app, concat_app, urun_app, R. cbn [bind repeat concat]. rewrite app_nil_r. exact R'.
Qed.
Lemma io_wait co s : 1 <= co_cpld co -> quiet (co_cpld co) s -> rq_frame (io_opt co) io_frame s = Ok (set_w_a AIdle (set_w_np [io_req] (note (EAccept io_req) s))).
Proof.
  intros CD []. unfold rq_frame. change (o_parity (io_opt co)) with false. rewrite io_unpack. cbn [bind].
  change (discontinue io_req) with false. change (rid_enable io_req) with true. cbv iota zeta. rewrite io_np. cbn [bind].
  replace (w_credit (note (EAccept io_req) s) + us_credits io_req <=? co_cpld (o_core (io_opt co))) with false by (rewrite io_credits; cbn [note w_credit io_opt o_core]; rewrite qu_credit0; lia).
  rewrite andb_false_r. cbn [andb]. unfold np_put. replace (w_np (note (EAccept io_req) s)) with (@nil tlp_us) by (symmetry; exact qu_np0). reflexivity.
Qed.
Lemma io_last co s : 1 <= co_cpld co -> quiet (co_cpld co) s -> exists s', urun (io_opt co) [LFrame io_frame; LNp] s = Ok s' /\ w_b s' = BCredit io_req /\
  (forall t, w_active s' t = None) /\ w_np s' = [] /\ w_credit s' = co_cpld co /\ w_rcq s' = [] /\ w_r s' = RIdle.
Proof.
  intros CD Q. pose proof (io_wait co s CD Q) as D. destruct Q. set (s1 := set_w_a AIdle (set_w_np [io_req] (note (EAccept io_req) s))) in *.
  rewrite (urun_cons _ _ _ _ s1) by (cbn [ustep]; rewrite qu_a0; exact D).
  assert (B1 : w_b s1 = BIdle) by exact qu_b0. assert (N1 : w_np s1 = [io_req]) by reflexivity. assert (C1 : w_credit s1 = co_cpld co) by exact qu_credit0.
  rewrite (urun_cons _ _ _ _ (set_w_b (BCredit io_req) (set_w_rel false (set_w_deq true (set_w_np [] s1))))).
  - eexists. split; [reflexivity|]. cbn [set_w_b set_w_rel set_w_deq set_w_np w_b w_active w_np w_credit w_rcq w_r]. repeat split; auto.
  - cbn [ustep]. rewrite B1, N1. unfold np_loop.
    replace (w_credit (set_w_deq true (set_w_np [] s1)) + us_credits io_req >? co_cpld (o_core (io_opt co))) with true
      by (rewrite io_credits; cbn [set_w_deq set_w_np w_credit io_opt o_core]; rewrite C1; lia). reflexivity.
Qed.
Lemma us_leak co c : 1 <= co_cplh co -> 1 <= co_cpld co -> c = wcfg false -> exists ls s u,
  urun (io_opt co) ls (udev0 c) = Ok s /\ opened (w_log s) = [] /\ w_rcq s = [] /\ w_r s = RIdle /\ w_np s = [] /\ w_b s = BCredit u /\
  forall ls' s', Forall no_data ls' -> urun (io_opt co) ls' s = Ok s' -> w_b s' = BCredit u.
Proof.
  intros CH CD ->. destruct (io_many co (Z.to_nat (co_cpld co)) CH CD ltac:(lia)) as (s & R & Q). rewrite Z2Nat.id in Q by lia.
  destruct (io_last co s CD Q) as (s' & R' & B & A & N & C & X1 & X2).
  exists (concat (repeat io_round (Z.to_nat (co_cpld co))) ++ [LFrame io_frame; LNp]), s', io_req.
  assert (RR : urun (io_opt co) (concat (repeat io_round (Z.to_nat (co_cpld co))) ++ [LFrame io_frame; LNp]) (udev0 (wcfg false)) = Ok s') by (rewrite urun_app, R; exact R').
  split; [exact RR|]. split.
  { apply tbl_run in RR as (_ & _ & _ & H). destruct (opened (w_log s')) as [|r l]; [reflexivity|]. destruct (H r (or_introl eq_refl)) as (_ & u & E & _). rewrite A in E. discriminate. }
  repeat (split; [assumption|]). intros ls' s2 F H. eapply credit_stuck; eauto; cbn [io_opt o_core]; [lia|]. rewrite C, io_credits. lia.
Qed.

(** ** 32 requests take all tags; a further one waits and is passed by a later one *)
Definition core_opt (co : core) : uopt := mkUopt co false false.
Definition rd_frame : us_frame := Eval vm_compute in wframe (wreq MEM_READ 1 0 []).
Definition rd_req : tlp_us := Eval vm_compute in match unpack_us_rq false rd_frame with Ok u => u | Err _ => tlp_us0 end.
Definition fill (k : nat) : list ulabel := concat (repeat [LFrame io_frame; LSentA; LSeqOut; LTagOut] k).
Definition drain (n : Z) : list ulabel := concat (map (fun t => [LCpl (wcpl t); LOut; LOutDone]) (zrange n)).
Definition tag_run : list ulabel := fill 32 ++ [LFrame io_frame; LNp] ++ drain 32.
Definition end_of (o : uopt) (ls : list ulabel) (c : ucfg) : udev := match urun o ls (udev0 c) with Ok s => s | Err _ => udev0 c end.
Definition fine {A} (r : res A) : bool := match r with Ok _ => true | Err _ => false end.
Lemma fine_end o ls c : fine (urun o ls (udev0 c)) = true -> urun o ls (udev0 c) = Ok (end_of o ls c).
Proof. unfold end_of. now destruct (urun _ _ _). Qed.
Lemma us_tag_wait co : co = us_core \/ co = usp_core -> exists ls s u, urun (core_opt co) ls (udev0 (wcfg false)) = Ok s /\
  opened (w_log s) = [] /\ w_rcq s = [] /\ w_np s = [] /\ w_credit s <= 33 /\ In u (accepted (w_log s)) /\
  forall ls' s', urun (core_opt co) ls' s = Ok s' -> w_b s' = BTag u.
Proof.
  intros CO. assert (X : urun (core_opt co) tag_run (udev0 (wcfg false)) = Ok (end_of (core_opt co) tag_run (wcfg false)))
    by (apply fine_end; destruct CO as [-> | ->]; vm_compute; reflexivity).
  exists tag_run, (end_of (core_opt co) tag_run (wcfg false)), io_req. split; [exact X|].
  assert (T : w_tag (end_of (core_opt co) tag_run (wcfg false)) = false) by (destruct CO as [-> | ->]; vm_compute; reflexivity).
  assert (B : w_b (end_of (core_opt co) tag_run (wcfg false)) = BTag io_req) by (destruct CO as [-> | ->]; vm_compute; reflexivity).
  split; [destruct CO as [-> | ->]; vm_compute; reflexivity|]. split; [destruct CO as [-> | ->]; vm_compute; reflexivity|].
  split; [destruct CO as [-> | ->]; vm_compute; reflexivity|]. split; [destruct CO as [-> | ->]; vm_compute; discriminate|].
  split; [destruct CO as [-> | ->]; vm_compute; tauto|]. intros ls' s'. now apply stuck_run.
Qed.
Definition pass_run : list ulabel := tag_run ++ [LFrame rd_frame].
Lemma us_pass co : co = us_core \/ co = usp_core -> exists ls s a u v, urun (core_opt co) ls (udev0 (wcfg false)) = Ok s /\
  accepted (w_log s) = a ++ [u; v] /\ needs_answer (u_tlp u) = true /\ needs_answer (u_tlp v) = true /\ u <> v /\
  map (untagged (core_opt co)) (settled (w_log s)) = map (untagged (core_opt co)) (a ++ [v]).
Proof.
  intros CO. exists pass_run, (end_of (core_opt co) pass_run (wcfg false)), (repeat io_req 32), io_req, rd_req.
  split; [apply fine_end; destruct CO as [-> | ->]; vm_compute; reflexivity|].
  split; [destruct CO as [-> | ->]; vm_compute; reflexivity|]. split; [reflexivity|]. split; [reflexivity|].
  split; [intros E; apply (f_equal (fun u => data (u_tlp u))) in E; discriminate|]. destruct CO as [-> | ->]; vm_compute; reflexivity.
Qed.
(** ** The 65th outstanding request with extended tags *)
Lemma us_ext : exists ls s, urun (core_opt us_core) ls (udev0 (wcfg true)) = Ok s /\ length (opened (w_log s)) = 64%nat /\ w_a s = AIdle /\
  unpack_us_rq false rd_frame = Ok rd_req /\ tlp_check (tlp_copy (u_tlp rd_req)) = Ok true /\ ustep (core_opt us_core) (LFrame rd_frame) s = Err TypeError.
Proof.
  exists (fill 64), (end_of (core_opt us_core) (fill 64) (wcfg true)). split; [apply fine_end; vm_compute; reflexivity|].
  repeat (split; [vm_compute; reflexivity|]). vm_compute. reflexivity.
Qed.
(** ** Completions without space *)
Definition lost_run (co : core) : list ulabel := concat (repeat [LFrame io_frame; LSentA; LCpl (wcpl 0)] (Z.to_nat (co_cplh co))) ++ [LFrame io_frame; LSentA].
Lemma us_lost co : co = us_core \/ co = usp_core -> exists ls s s' u, urun (io_opt co) ls (udev0 (wcfg false)) = Ok s /\ opened (w_log s) = [u_tlp io_req] /\
  ends_request (wcpl 0) (u_tlp io_req) = true /\ code_of (opened (w_log s)) (wcpl 0) = NORMAL_TERMINATION /\
  ustep (io_opt co) (LCpl (wcpl 0)) s = Ok s' /\ w_log s' = w_log s ++ [ECpl (wcpl 0) u false] /\ opened (w_log s') = [].
Proof.
  intros CO. exists (lost_run co), (end_of (io_opt co) (lost_run co) (wcfg false)),
    (match ustep (io_opt co) (LCpl (wcpl 0)) (end_of (io_opt co) (lost_run co) (wcfg false)) with Ok s => s | Err _ => udev0 (wcfg false) end), io_out.
  split; [apply fine_end; destruct CO as [-> | ->]; vm_compute; reflexivity|].
  split; [destruct CO as [-> | ->]; vm_compute; reflexivity|]. split; [vm_compute; reflexivity|].
  split; [destruct CO as [-> | ->]; vm_compute; reflexivity|].
  split; [|split; destruct CO as [-> | ->]; vm_compute; reflexivity].
  assert (X : fine (ustep (io_opt co) (LCpl (wcpl 0)) (end_of (io_opt co) (lost_run co) (wcfg false))) = true) by (destruct CO as [-> | ->]; vm_compute; reflexivity).
  destruct (ustep _ _ _); [reflexivity|discriminate].
Qed.
