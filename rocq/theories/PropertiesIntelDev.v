(** C53: the device models of the Intel hard IPs, between the link and the two streams. *)
From Verif Require Import Base ModelUtils ModelTlp ModelAttrs ModelCapList ModelConfig ModelFunction ModelRoute ModelFrames ModelChan ModelAvst ModelIntel ModelUsDev ModelIntelDev
  SpecTlp SpecBar SpecRoute SpecUsRoute SpecIntel SpecIntelDev ProofsIntelTlp ProofsIntelDev PropertiesUsRoute PropertiesIntel.
From Coq Require Import Lia.

(** ** Received TLPs *)
(** A memory or IO request becomes a frame with the number of a BAR whose window contains the address, of the first function that has one; if
    there is none, writes to memory are discarded and other requests are answered as unsupported.
    Missing from the full statement: the function the request is for ([C53_func_refuted]); the windows are restricted as in C21. *)
Theorem C53_request_partial : forall v t ty k io d ls, sendable ty k t -> route_of ty t = TAddr io (address t) ->
  Forall2 (fun p l => bars (fst p) (snd p) l (TAddr io (address t))) (d_fns d) ls -> fmt_type t = Ok ty ->
  exists act, intel_recv v t d = Ok (d, act) /\
  match act with
  | XReq g => exists j f n l i w m base, nth_error (d_fns d) j = Some (f, n) /\ nth_error ls j = Some l /\
      In (i, w, m, base) (windows 0 l) /\ is_io w = io /\ base <= address t < base + 2 ^ m /\ unclaimed io (address t) (firstn j ls) /\
      framed v t (if io then 6 else i) (func (requester_id t)) g
  | XDrop => (ty = MEM_WRITE \/ ty = MEM_WRITE_64) /\ unclaimed io (address t) ls
  | XAnswer c => ty <> MEM_WRITE /\ ty <> MEM_WRITE_64 /\ unclaimed io (address t) ls /\ is_answer UR c t (mkId (d_bus d) 0 0)
  | _ => False
  end.
Proof. exact intel_request. Qed.
(** Configuration requests of type 0 set the bus number of all functions and go to the function they name. *)
Theorem C53_config : forall v t ty d, fmt_type t = Ok ty -> (ty = CFG_READ_0 \/ ty = CFG_WRITE_0) -> 0 <= bus (completer_id t) < 256 ->
  Forall (fun p => bus (f_id (fst p)) = d_bus d) (d_fns d) ->
  exists d' act, intel_recv v t d = Ok (d', act) /\ d_bus d' = bus (completer_id t) /\
  Forall2 (fun p p' => snd p' = snd p /\ fst p' = with_id (mkId (bus (completer_id t)) (device (f_id (fst p))) (func (f_id (fst p)))) (fst p)) (d_fns d) (d_fns d') /\
  match act with
  | XFn k => (exists p, nth_error (d_fns d) k = Some p /\ addressed_fn t p = true) /\ Forall (fun p => addressed_fn t p = false) (firstn k (d_fns d))
  | XAnswer c => Forall (fun p => addressed_fn t p = false) (d_fns d) /\ is_answer UR c t (mkId (bus (completer_id t)) 0 0)
  | _ => False
  end.
Proof. exact intel_config. Qed.
Theorem C53_type1 : forall v t ty d, fmt_type t = Ok ty -> (ty = CFG_READ_1 \/ ty = CFG_WRITE_1) ->
  exists c, intel_recv v t d = Ok (d, XAnswer c) /\ is_answer UR c t (mkId (d_bus d) 0 0).
Proof. exact intel_type1. Qed.
(** Completions are taken exactly if one of the functions is the requester; the frame names that function. *)
Theorem C53_completion : forall v t ty k d, sendable ty k t -> fmt_type t = Ok ty -> completion t = true ->
  if existsb (fun p => id_eqb (f_id (fst p)) (requester_id t)) (d_fns d)
  then exists g, intel_recv v t d = Ok (d, XCpl g) /\ framed v t 0 (func (requester_id t)) g
  else intel_recv v t d = Ok (d, XDrop).
Proof. exact intel_completion. Qed.

(** ** Executions *)
(** Whatever the order of events: what was accepted is given to the RX stream in the order of arrival, once each. *)
Theorem C53_order : forall o d ls s, usual_limits o -> irun o ls (idev0 d) = Ok s -> arrived_tlps (y_log s) = received ls /\
  exists gone, entered (y_log s) = gone ++ held s /\ streamed (y_log s) = map snd (gone ++ sending s).
Proof. exact intel_order. Qed.
(** From every state, a stream that takes what it is given gets all of it, and the counts return to zero. *)
Theorem C53_drained : forall o d ls s, usual_limits o -> irun o ls (idev0 d) = Ok s ->
  exists s', irun o (drain (length (y_q s))) s = Ok s' /\ entered (y_log s') = entered (y_log s) /\ streamed (y_log s') = map snd (entered (y_log s)) /\
  held s' = [] /\ y_hc s' = 0 /\ y_dc s' = 0.
Proof. exact intel_drained. Qed.
(** A completion is lost only if there is indeed no space for it. *)
Theorem C53_drop : forall o d ls s t g s', usual_limits o -> irun o ls (idev0 d) = Ok s -> istep o (IRecv t) s = Ok s' ->
  y_log s' = y_log s ++ [JIn t (XCpl g) false] -> ~ within o (completions (held s) ++ [t]).
Proof. exact intel_drop. Qed.
(** The completions held exceed the buffer by no more than the requests that have left it, in number and in data; without requests, not at all.
    Missing from the full statement: that they never exceed it ([C53_buffer_refuted]). *)
Theorem C53_buffer_partial : forall o d ls s, usual_limits o -> irun o ls (idev0 d) = Ok s ->
  exists gone, entered (y_log s) = gone ++ held s /\
  zlen (completions (held s)) <= io_cplh o + zlen (requests gone) /\ data_units (completions (held s)) <= io_cpld o + data_units (requests gone).
Proof. exact intel_buffer. Qed.
(** The buffers of the ports of a P-Tile: that of port 0 (1144 headers, 1444 units of 256 bits) is twice that of port 1 and four times that of the others; each limit is usual. *)
Theorem C53_sizes : forall port, 0 <= port -> let o := ptile_opt port in
  io_cplh o * 2 ^ Z.min port 2 = 1144 /\ io_cpld o * 16 * 2 ^ Z.min port 2 = 1444 * 32 /\ usual_limits o /\ io_tile o = PTile /\
  usual_limits s10_opt /\ io_tile s10_opt = HTile /\ io_cplh s10_opt = 770 /\ io_cpld s10_opt = 2432.
Proof.
  intros port H. cbv zeta. unfold ptile_opt, usual_limits. destruct (Z.eqb_spec port 0) as [->|N0]; [cbn; repeat split; lia|]. destruct (Z.eqb_spec port 1) as [->|N1]; [cbn; repeat split; lia|].
  rewrite Z.min_r by lia. cbn. repeat split; lia.
Qed.
(** Frames of the TX stream are sent as TLPs, in order, each once; no TLP is sent that the check refuses. *)
Theorem C53_tx : forall o d ls s, irun o ls (idev0 d) = Ok s -> map fst (sent_up (y_log s)) = tx_frames ls /\
  Forall (fun x => tlp_of_frame (io_tile o) (fst x) = Ok (snd x) /\ tlp_check (snd x) = Ok true) (sent_up (y_log s)).
Proof. exact intel_tx. Qed.
(** What the user sends (C38: [arrived]) goes to the link with all that its type carries. *)
Theorem C53_user : forall o c t g s, dv c = io_tile o -> arrived c t g -> tlp_check t = Ok true ->
  exists ty k s', sendable ty k t /\ istep o (ITx g) s = Ok s' /\ y_log s' = y_log s ++ [JTx g (on_wire ty k t)] /\ y_dev s' = y_dev s /\ held s' = held s.
Proof. exact intel_user. Qed.

(** ** Examples *)
Definition cpl_to (i : pcie_id) : tlp := set_byte_count 4 (set_requester_id i (set_fmt_type CPL tlp0)).
Lemma read_sendable i : id_range i -> sendable MEM_READ KReq32 (set_requester_id i (read_at 0x100c)).
Proof. intros R. constructor; [constructor; cbn; try lia; try reflexivity; auto; try exact R; repeat split; lia|constructor|reflexivity]. Qed.
Lemma cpl_sendable i : id_range i -> sendable CPL KCpl (cpl_to i).
Proof. intros R. constructor; [constructor; cbn; try lia; try reflexivity; auto; try exact R; unfold id_range; cbn; repeat split; try lia|constructor|reflexivity]. Qed.
Definition act_of (r : res (ModelRoute.dev * iact)) : option (Z * Z) := match r with Ok (_, XReq g) | Ok (_, XCpl g) => Some (t_bar g, t_func g) | _ => None end.
Example C53_hyps : sendable MEM_READ KReq32 (read_at 0x100c) /\ sendable CPL KCpl (cpl_to (mkId 3 0 1)) /\
  Forall2 (fun p l => bars (fst p) (snd p) l (TAddr false 0x100c)) (d_fns two_fns) two_ls /\
  forall v, act_of (intel_recv v (read_at 0x100c) two_fns) = Some (0, 0) /\ act_of (intel_recv v (cpl_to (mkId 3 0 1)) two_fns) = Some (0, 1) /\
    usual_limits s10_opt /\ usual_limits (ptile_opt 0).
Proof.
  split; [apply (read_sendable (mkId 0 0 0)); unfold id_range; cbn; lia|]. split; [apply cpl_sendable; unfold id_range; cbn; lia|]. split; [apply two_bars; lia|].
  intros []; (split; [vm_compute; reflexivity|]; split; [vm_compute; reflexivity|]; split; split; vm_compute; discriminate).
Qed.
(** A buffer for one completion: the second one is lost, the third is not. *)
Example C53_ex : match irun (mkIopt HTile 1 0) [IRecv (cpl_to (mkId 3 0 0)); IRecv (cpl_to (mkId 3 0 1)); IGet; IDone; IRecv (cpl_to (mkId 3 0 1))] (idev0 two_fns) with
  | Ok s => (map t_func (streamed (y_log s)), map (fun x => t_func (snd x)) (held s), y_hc s, flat_map (fun e => match e with JIn _ _ b => [b] | _ => [] end) (y_log s))
  | Err _ => ([], [], 0, []) end = ([0], [1], 1, [true; false; true]).
Proof. vm_compute. reflexivity. Qed.
Example C53_user_ex : exists g, arrived (mkIn HTile 256 1 all_of) (ex_wr 1 0x1000) g /\ tlp_check (ex_wr 1 0x1000) = Ok true.
Proof.
  destruct C38_hyps as (_ & A & _). pose proof (Forall_inv A) as S1. destruct S1 as (ty & k & S1). destruct (sendable_frame HTile ty k _ S1) as [f F].
  eexists. split; [|reflexivity]. apply (tlp_arrived (mkIn HTile 256 1 all_of) _ f); [exists ty, k; exact S1|exact F].
Qed.

(** ** Refutations *)
(** Requests that leave the queue are taken off the count of completions: however small the buffer, any number of completions is accepted. *)
Definition rq_frame (v : ModelIntel.dev) : pt_frame := match intel_recv v (read_at 0x100c) two_fns with Ok (_, XReq g) => g | _ => mkPt 0 0 [] 0 0 [] 0 None 0 0 0 end.
Definition cp_frame (v : ModelIntel.dev) : pt_frame := match intel_recv v (cpl_to (mkId 3 0 0)) two_fns with Ok (_, XCpl g) => g | _ => mkPt 0 0 [] 0 0 [] 0 None 0 0 0 end.
Lemma recv_rq v : intel_recv v (read_at 0x100c) two_fns = Ok (two_fns, XReq (rq_frame v)).
Proof. destruct v; vm_compute; reflexivity. Qed.
Lemma recv_cp v : intel_recv v (cpl_to (mkId 3 0 0)) two_fns = Ok (two_fns, XCpl (cp_frame v)).
Proof. destruct v; vm_compute; reflexivity. Qed.
Lemma fill_requests o : forall n q l, exists l', irun o (repeat (IRecv (read_at 0x100c)) n) (mkIdev two_fns q None 0 0 l) =
  Ok (mkIdev two_fns (q ++ repeat (read_at 0x100c, rq_frame (io_tile o)) n) None 0 0 l').
Proof.
  induction n as [|n IH]; intros q l; cbn [repeat irun].
  - exists l. now rewrite app_nil_r.
  - cbn [istep y_dev]. rewrite recv_rq. cbn [bind y_q y_busy y_hc y_dc y_log]. match goal with |- context [irun _ _ (mkIdev _ ?q' _ _ _ ?l')] => destruct (IH q' l') as [l2 E] end.
    exists l2. rewrite E, <- app_assoc. reflexivity.
Qed.
Lemma fill_completions o : 1 <= io_cplh o -> 0 <= io_cpld o -> forall n m h l, 0 <= h <= 1 ->
  exists s, irun o (concat (repeat [IGet; IDone; IRecv (cpl_to (mkId 3 0 0))] n))
    (mkIdev two_fns (repeat (read_at 0x100c, rq_frame (io_tile o)) n ++ repeat (cpl_to (mkId 3 0 0), cp_frame (io_tile o)) m) None h 0 l) = Ok s /\
  held s = repeat (cpl_to (mkId 3 0 0), cp_frame (io_tile o)) (m + n) /\ 0 <= y_hc s <= 1.
Proof.
  intros C1 C2. induction n as [|n IH]; intros m h l H; cbn [repeat concat app].
  - eexists. split; [reflexivity|]. cbn. rewrite Nat.add_0_r. auto.
  - cbn [irun istep bind y_dev y_q y_busy y_hc y_dc y_log]. rewrite recv_cp. cbn [bind].
    replace (Z.max (h - 1) 0) with 0 by lia. change (get_data_credits (read_at 4108)) with 0. change (get_data_credits (cpl_to (mkId 3 0 0))) with 0. cbn [Z.sub Z.add Z.opp Z.max Z.compare].
    replace (1 <=? io_cplh o) with true by lia. replace (0 <=? io_cpld o) with true by lia. cbn [andb bind].
    rewrite <- app_assoc. change [(cpl_to (mkId 3 0 0), cp_frame (io_tile o))] with (repeat (cpl_to (mkId 3 0 0), cp_frame (io_tile o)) 1). rewrite <- repeat_app.
    rewrite (Nat.add_comm m 1). cbn [plus]. rewrite (Nat.add_succ_r m n).
    match goal with |- context [irun _ _ (mkIdev _ _ _ ?h' _ ?l')] => destruct (IH (S m) h' l') as (s & E & Hs & H') end; [lia|].
    exists s. split; [exact E|]. split; [exact Hs|exact H'].
Qed.
Theorem C53_buffer_refuted : forall o, 1 <= io_cplh o -> 0 <= io_cpld o -> forall n, exists d ls s, irun o ls (idev0 d) = Ok s /\ length (completions (held s)) = n /\ y_hc s <= 1.
Proof.
  intros o C1 C2 n. destruct (fill_requests o n [] []) as [l1 E1]. destruct (fill_completions o C1 C2 n 0 0 l1) as (s & E & Hs & H); [lia|].
  exists two_fns, (repeat (IRecv (read_at 0x100c)) n ++ concat (repeat [IGet; IDone; IRecv (cpl_to (mkId 3 0 0))] n)), s.
  split; [|split; [|lia]].
  - rewrite irun_app. change (idev0 two_fns) with (mkIdev two_fns [] None 0 0 []). rewrite E1. cbn [bind app]. rewrite <- (app_nil_r (repeat (read_at _, _) n)). exact E.
  - rewrite Hs. cbn [plus]. clear. induction n as [|n IH]; [reflexivity|]. unfold completions in *. cbn [repeat map filter fst]. change (completion (cpl_to (mkId 3 0 0))) with true. cbn [length]. now rewrite IH.
Qed.
(** The function number given to the user is that of the requester: here the request is for function 1, and the frame says 0. *)
Theorem C53_func_refuted : forall v, exists t d ls g, Forall2 (fun p l => bars (fst p) (snd p) l (TAddr false (address t))) (d_fns d) ls /\
  intel_recv v t d = Ok (d, XReq g) /\ unclaimed false (address t) (firstn 1 ls) /\ map (fun p => func (f_id (fst p))) (d_fns d) = [0; 1] /\ t_func g = 0.
Proof.
  intros []; exists (read_at 0x2080), two_fns, two_ls; eexists; (split; [apply two_bars; cbn; lia|]; split; [vm_compute; reflexivity|]; split; [repeat constructor|]; split; reflexivity).
Qed.
(** So a request of a requester with function number 4, for function 0, ends the coroutine of the RX stream of the Stratix 10 model: the signal
    has two bits. *)
Theorem C53_func_raises_refuted : exists t d g c, fits MEM_READ KReq32 t /\ intel_recv HTile t d = Ok (d, XReq g) /\ good_icfg c /\ dv c = HTile /\
  in_run c 0 in_chan0 [VSend g; VRun] = Some (Err OverflowError).
Proof.
  set (t := set_requester_id (mkId 1 2 4) (read_at 0x100c)).
  destruct (intel_recv HTile t two_fns) as [[d a]|] eqn:E; [|vm_compute in E; discriminate].
  exists t, two_fns, (match a with XReq g => g | _ => mkPt 0 0 [] 0 0 [] 0 None 0 0 0 end), (mkIn HTile 256 1 all_of).
  split; [apply (read_sendable (mkId 1 2 4)); unfold id_range; cbn; lia|].
  vm_compute in E. injection E as <- <-. split; [vm_compute; reflexivity|]. split; [apply ex_good; cbn; auto 10|]. split; [reflexivity|]. vm_compute. reflexivity.
Qed.
(** Memory requests of the user are sent although no function is enabled as a bus master. *)
Theorem C53_master_refuted : forall o : iopt, exists d f s t, Forall (fun p => ModelConfig.f_attr (fst p) fn_bus_master_enable = 0) (d_fns d) /\ irun o [ITx f] (idev0 d) = Ok s /\
  sent_up (y_log s) = [(f, t)] /\ fmt_type t = Ok MEM_WRITE.
Proof.
  intros o. exists two_fns. destruct (frame_of_tlp (io_tile o) (ex_wr 1 0x1000)) as [f|] eqn:E; [|destruct (io_tile o); vm_compute in E; discriminate].
  exists f. eexists. exists (ex_wr 1 0x1000). split; [repeat constructor|].
  assert (X : tlp_of_frame (io_tile o) f = Ok (ex_wr 1 0x1000)) by (destruct (io_tile o); vm_compute in E; injection E as <-; vm_compute; reflexivity).
  cbn [irun istep]. rewrite X. cbn [bind]. split; [reflexivity|]. split; reflexivity.
Qed.

Print Assumptions C53_request_partial.
Print Assumptions C53_config.
Print Assumptions C53_type1.
Print Assumptions C53_completion.
Print Assumptions C53_order.
Print Assumptions C53_drained.
Print Assumptions C53_drop.
Print Assumptions C53_buffer_partial.
Print Assumptions C53_sizes.
Print Assumptions C53_tx.
Print Assumptions C53_user.
Print Assumptions C53_buffer_refuted.
Print Assumptions C53_func_refuted.
Print Assumptions C53_func_raises_refuted.
Print Assumptions C53_master_refuted.
