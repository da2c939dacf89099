(** C30: switches and devices. *)
From Coq Require Import Permutation Sorted.
From Verif Require Import Base ModelUtils ModelTlp ModelAttrs ModelCaps ModelCapList ModelConfig ModelFunction ModelRoute
  SpecBar SpecRoute SpecNumbers SpecSwitch ProofsSwitch ProofsSwitchInv ProofsSwitchRun ProofsSwitchTarget ProofsRouteDev.

(** ** Switches.  In every execution of a switch of any size, every TLP that entered or was made by the switch is in exactly one place:
    in one queue, sent on one link, kept by one bridge, or released. *)
Theorem C30_one_place : forall root B ops s, Forall plain B -> Forall (sop_ok (length B)) ops -> sw_run ops (sw0 root B) = Ok s ->
  Permutation (map fst (all_pkts (length B) s)) (List.seq 0 (sw_next s)) /\
  map fst (flat_map made (rev (sw_log s))) = List.seq 0 (sw_next s).
Proof. exact one_place. Qed.
(** It is what entered or was made, except for type 1 requests that have become type 0. *)
Theorem C30_content : forall root B ops s p, Forall plain B -> Forall (sop_ok (length B)) ops -> sw_run ops (sw0 root B) = Ok s ->
  In p (all_pkts (length B) s) -> exists t, In (fst p, t) (flat_map made (sw_log s)) /\ same_tlp t (snd p).
Proof. exact content. Qed.
(** A TLP is answered exactly if it is released and non-posted, once, with a completion for it; only completions are kept. *)
Theorem C30_answers : forall root B ops s e, Forall plain B -> Forall (sop_ok (length B)) ops -> sw_run ops (sw0 root B) = Ok s -> In e (sw_log s) ->
  match e with
  | EIn i p => good (snd p)
  | EOut i p => True
  | EKept i p => is_cpl (snd p) = true
  | EFree i p None => non_posted (type_of (snd p)) = false
  | EFree i p (Some c) => non_posted (type_of (snd p)) = true /\ answers (snd c) (snd p)
  end.
Proof. exact log_ok. Qed.
(** The routing task hands the first TLP of its queue to the first other port that claims it, and to no other; what no port
    claims is released and, if non-posted, answered with UR. *)
Theorem C30_route : forall root B ops s i p r, Forall plain B -> Forall (sop_ok (length B)) ops -> sw_run ops (sw0 root B) = Ok s ->
  (i < length B)%nat -> sw_ing s i = p :: r ->
  let s1 := sw_set_ing i r s in
  match find (port_wants s (target (snd p))) (others i (length B)) with
  | Some j => sw_step (SRoute i) s = Ok (sw_set_q i j (sw_q s i j ++ [p]) s1)
  | None => if non_posted (type_of (snd p))
            then exists c cid, is_ur c (snd p) cid /\
              sw_step (SRoute i) s = sw_recv i (sw_egress i) (sw_next s, c) (sw_fresh (sw_note (EFree i p (Some (sw_next s, c))) s1))
            else sw_step (SRoute i) s = Ok (sw_note (EFree i p None) s1)
  end.
Proof. exact route_one. Qed.
(** Without configuration writes (which move windows): a TLP that entered at port i and leaves, leaves at another port where it belongs. *)
Theorem C30_target : forall root B ops s i j k t t', Forall plain B -> Forall (sop_ok (length B)) ops -> Forall quiet ops ->
  sw_run ops (sw0 root B) = Ok s -> In (EIn i (k, t)) (sw_log s) -> In (EOut j (k, t')) (sw_log s) -> j <> i /\ belongs root B j t.
Proof. exact target_ok. Qed.
(** The switch comes to rest: every step that has something to do lowers [work], and when no step has, the queues are empty. *)
Theorem C30_progress : forall root B ops s o s', Forall plain B -> Forall (sop_ok (length B)) ops -> sw_run ops (sw0 root B) = Ok s ->
  sop_ok (length B) o -> busy o s = true -> sw_step o s = Ok s' -> (work (length B) s' < work (length B) s)%nat.
Proof. exact progress. Qed.
Theorem C30_rest : forall n s, (forall o, sop_ok n o -> busy o s = false) -> in_ing n s = [] /\ in_q n s = [].
Proof. exact work_zero. Qed.
(** The only exceptions are those of a configuration access to a bridge of the switch (see C24). *)
Theorem C30_errors : forall root B ops e, Forall plain B -> Forall (sop_ok (length B)) ops -> sw_run ops (sw0 root B) = Err e ->
  exists t f, (type_of t = CFG_READ_0 \/ type_of t = CFG_WRITE_0) /\ cfg_target t f = true /\ br_handle t f = Err e.
Proof. intros root B ops e P O. exact (errors root B ops P O e). Qed.

(** ** Devices.  A TLP goes to the first function that it is for, or is released and, if non-posted, answered with UR. *)
Theorem C30_device : forall t ty d ls, tlp_check t = Ok true -> fmt_type t = Ok ty -> route_of ty t <> TNone -> 0 <= bus (completer_id t) < 256 ->
  Forall2 (fun x b => bars (fst x) (snd x) b (route_of ty t)) (d_fns d) ls ->
  exists d' acts, dev_upstream_recv t d = Ok (d', acts) /\
  (if cfg0 ty then d_bus d' = bus (completer_id t) /\ (d_fns d' = d_fns d \/ d_fns d' = map (rebus (bus (completer_id t))) (d_fns d)) else d' = d) /\
  ((exists k x b, acts = [DTo k t] /\ nth_error (d_fns d') k = Some x /\ nth_error ls k = Some b /\ own (fst x) b (route_of ty t) = true /\
      forall k' x' b', (k' < k)%nat -> nth_error (d_fns d') k' = Some x' -> nth_error ls k' = Some b' -> own (fst x') b' (route_of ty t) = false) \/
   ((forall k x b, nth_error (d_fns d') k = Some x -> nth_error ls k = Some b -> own (fst x) b (route_of ty t) = false) /\
    (if non_posted ty then exists c, acts = [DFree t; DAns c] /\ is_ur c t (mkId (d_bus d') 0 0) else acts = [DFree t]))).
Proof. exact dev_recv. Qed.
(** A configuration request goes to the function with its number, of which there is only one (C31). *)
Theorem C30_device_config : forall t ty d ls, tlp_check t = Ok true -> fmt_type t = Ok ty -> cfg0 ty = true -> 0 <= bus (completer_id t) < 256 ->
  Forall2 (fun x b => bars (fst x) (snd x) b (route_of ty t)) (d_fns d) ls -> StronglySorted Z.lt (nums d) -> Forall (fun x => device (f_id (fst x)) = 0) (d_fns d) ->
  exists d' acts, dev_upstream_recv t d = Ok (d', acts) /\ nums d' = nums d /\ d_bus d' = bus (completer_id t) /\
  (device (completer_id t) = 0 -> forall k, nth_error (nums d) k = Some (func (completer_id t)) -> acts = [DTo k t]) /\
  (device (completer_id t) <> 0 \/ ~ In (func (completer_id t)) (nums d) -> exists c, acts = [DFree t; DAns c] /\ is_ur c t (mkId (bus (completer_id t)) 0 0)).
Proof. exact dev_config. Qed.

(** ** Examples: a switch with two downstream ports; bus 1 inside, buses 2 and 3 behind the ports. *)
Definition port_ex (i : pcie_id) (sec sub base limit : Z) : fnc :=
  mkFn (aset fn_sec_bus_num sec (aset fn_sub_bus_num sub (aset fn_mem_base base (aset fn_mem_limit limit bridge_init))))
    (fun _ => mkCap KMsi 5 0 6 None 0 (fun _ => 0)) [] [] i.
Definition sw_ex : list fnc := [port_ex (mkId 0 1 0) 1 3 0x80000000 0x801fffff; port_ex (mkId 1 1 0) 2 2 0x80000000 0x800fffff; port_ex (mkId 1 2 0) 3 3 0x80100000 0x801fffff].
Definition rd_ex (a : Z) : tlp := set_tlen 1 (set_address a (set_fmt_type MEM_READ tlp0)).
Definition cfg_rd (ty : tlp_type) (b d r : Z) : tlp := set_tlen 1 (set_address r (set_completer_id (mkId b d 0) (set_fmt_type ty tlp0))).
Definition ops_ex : list sop :=
  [SIn 0 (rd_ex 0x80100000); SIn 0 (cfg_rd CFG_READ_1 2 0 0); SIn 1 (rd_ex 0x80110000); SIn 2 (rd_ex 0x1000000); SIn 1 (rd_ex 0x80010000); SIn 0 (cfg_rd CFG_READ_1 1 2 0);
   SRoute 0; SRoute 0; SRoute 0; SRoute 1; SRoute 2; STransfer 0 2; STransfer 0 1; STransfer 1 2; STransfer 2 0; STransfer 0 2; SRoute 2; STransfer 2 0].
(** What happened: 0 in, 1 out, 2 kept, 3 released; the port; the number of the TLP.  TLPs 5 and 7 are answers of the switch. *)
Definition log_ex : list (nat * nat * nat) :=
  match sw_run ops_ex (sw0 false sw_ex) with
  | Ok s => map (fun e => match e with EIn i p => (0, i, fst p) | EOut i p => (1, i, fst p) | EKept i p => (2, i, fst p) | EFree i p _ => (3, i, fst p) end)%nat (rev (sw_log s))
  | Err _ => []
  end.
Example C30_ex : Forall plain sw_ex /\ Forall (sop_ok 3) ops_ex /\ Forall quiet ops_ex /\ log_ex =
  [(0, 0, 0); (0, 0, 1); (0, 1, 2); (0, 2, 3); (0, 1, 4); (3, 1, 4); (1, 1, 5); (0, 0, 6); (1, 2, 0); (1, 1, 1); (1, 2, 2); (1, 0, 3); (3, 2, 6); (1, 0, 7)]%nat.
Proof.
  split; [repeat constructor|]. split.
  { repeat constructor; try discriminate; try (eexists; split; [vm_compute; reflexivity|discriminate]). }
  split; [repeat constructor; discriminate|]. vm_compute. reflexivity.
Qed.
(** A device with functions 0 and 2; only function 2 has a BAR. *)
Definition fn_ex (k base mask : Z) : fnc * Z :=
  (mkFn (aset (fn_bar 0) base (aset (fn_bar_mask 0) mask endpoint_init)) (fun _ => mkCap KMsi 5 0 6 None 0 (fun _ => 0)) [] [] (mkId 0 0 k), 6).
Definition dev_ex : dev := mkDev 0 [fn_ex 0 0 0; fn_ex 2 0x80000000 0xfffff000].
Definition lay_ex : list (list entry) := [[None; None; None; None; None; None]; [Some (BMem false false, 12, 0x80000000); None; None; None; None; None]].
Definition dacts (t : tlp) : option (list dact) := match dev_upstream_recv t dev_ex with Ok (_, l) => Some l | Err _ => None end.
Example C30_device_ex :
  Forall2 (fun x b => bars (fst x) (snd x) b (TAddr false 0x80000010)) (d_fns dev_ex) lay_ex /\ StronglySorted Z.lt (nums dev_ex) /\
  dacts (rd_ex 0x80000010) = Some [DTo 1 (rd_ex 0x80000010)] /\
  dacts (rd_ex 0x80001000) = Some [DFree (rd_ex 0x80001000); DAns (create_ur_completion (rd_ex 0x80001000) (mkId 0 0 0))] /\
  dacts (set_completer_id (mkId 5 0 2) (cfg_rd CFG_READ_0 0 0 0)) = Some [DTo 1 (set_completer_id (mkId 5 0 2) (cfg_rd CFG_READ_0 0 0 0))].
Proof.
  split; [|split; [repeat constructor|vm_compute; repeat split]].
  repeat constructor; try (vm_compute; repeat split; try reflexivity; try discriminate; repeat constructor; fail).
Qed.

Print Assumptions C30_one_place.
Print Assumptions C30_content.
Print Assumptions C30_answers.
Print Assumptions C30_route.
Print Assumptions C30_target.
Print Assumptions C30_progress.
Print Assumptions C30_rest.
Print Assumptions C30_errors.
Print Assumptions C30_device.
Print Assumptions C30_device_config.
