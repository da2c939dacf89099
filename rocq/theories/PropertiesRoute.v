(** C29: bridges; C31: numbers; C44: error status bits. *)
From Coq Require Import Permutation Sorted.
From Verif Require Import Base ModelUtils ModelTlp ModelAttrs ModelCaps ModelCapList ModelConfig ModelFunction ModelRoute
  SpecUtils SpecBar SpecRoute SpecNumbers ProofsUtils ProofsCaps ProofsRoute ProofsRouteBr ProofsRouteNum.

(** ** C29: whatever is written to the registers of a bridge, the windows and bus numbers in force are those that the registers show. *)
Theorem C29_windows : forall ws f, programmed f -> Forall (fun w => 0 <= snd w < 16) ws ->
  let g := fold_left (fun f w => br_write (fst (fst w)) (snd (fst w)) (snd w) f) ws f in
  bus_range g = reg_bus_range g /\ io_window g = reg_io_window g /\ mem_window g = reg_mem_window g /\ pf_window g = reg_pf_window g.
Proof. exact windows_shown. Qed.

(** ** A TLP from above: to the bridge itself, down if its target is behind the bridge, and otherwise released, with one UR
    completion if it is non-posted. *)
Theorem C29_upstream : forall t ty f l, tlp_check t = Ok true -> fmt_type t = Ok ty -> route_of ty t <> TNone -> bars f 2 l (route_of ty t) ->
  exists f' acts, br_upstream_recv t f = Ok (f', acts) /\
  (own f l (route_of ty t) = true -> acts = [Own t]) /\
  (own f l (route_of ty t) = false -> behind f (route_of ty t) = true -> acts = [Fwd Down (as_seen f ty t)]) /\
  (own f l (route_of ty t) = false -> behind f (route_of ty t) = false -> non_posted ty = false -> acts = [Free t]) /\
  (own f l (route_of ty t) = false -> behind f (route_of ty t) = false -> non_posted ty = true ->
   exists c, acts = [Free t; Ans Up c] /\ is_ur c t (f_id f)).
Proof. exact upstream_acts. Qed.
(** A type 1 request for the secondary bus arrives there as type 0, otherwise unchanged. *)
Theorem C29_converted : forall t ty f, fmt_type t = Ok ty -> behind f (route_of ty t) = true ->
  fmt_type (as_seen f ty t) = Ok (if bus (completer_id t) =? fst (bus_range f) then
    match ty with CFG_READ_1 => CFG_READ_0 | CFG_WRITE_1 => CFG_WRITE_0 | _ => ty end else ty) /\
  as_seen f ty t = set_type_ (type_ (as_seen f ty t)) t.
Proof. exact converted. Qed.
(** ** A TLP from below: up, unless its target is behind the bridge; configuration requests only travel down. *)
Theorem C29_downstream : forall (root : bool) t ty f l, tlp_check t = Ok true -> fmt_type t = Ok ty -> route_of ty t <> TNone ->
  bars f 2 l (route_of ty t) ->
  let r := route_of ty t in
  exists f' acts, br_downstream_recv root t f = Ok (f', acts) /\
  (local_cfg r = false -> root = false -> own f l r = true -> acts = [Own t]) /\
  (local_cfg r = false -> root = true -> acts = [Fwd Up t]) /\
  (local_cfg r = false -> own f l r = false -> behind f r = false -> acts = [Fwd Up t]) /\
  (local_cfg r = false -> root = false -> own f l r = false -> behind f r = true -> non_posted ty = false -> acts = [Free t]) /\
  (local_cfg r = true \/ root = false /\ own f l r = false /\ behind f r = true /\ non_posted ty = true ->
   exists c, acts = [Free t; Ans Down c] /\ is_ur c t (f_id f)).
Proof. exact downstream_acts. Qed.
(** ** A TLP of the bridge itself: once, towards its target. *)
Theorem C29_send : forall t ty f, tlp_check t = Ok true -> fmt_type t = Ok ty -> route_of ty t <> TNone ->
  exists f', br_send t f = Ok (f', [Fwd (if behind f (route_of ty t) then Down else Up) t]).
Proof. exact send_acts. Qed.

(** ** C44: the status bits of a bridge record exactly what the specification asks for (PCIe 7.5.1.1.4, 7.5.1.3.7), nothing else changes. *)
Theorem C44_upstream : forall t ty f l f' acts, tlp_check t = Ok true -> fmt_type t = Ok ty -> route_of ty t <> TNone ->
  bars f 2 l (route_of ty t) -> br_upstream_recv t f = Ok (f', acts) ->
  let r := route_of ty t in
  reports f f' (par fn_parity_error_response_enable fn_master_data_parity_error t f ::
    if own f l r then [(fn_received_target_abort, is_back r && (status t =? CA)); (fn_received_master_abort, is_back r && (status t =? UR))]
    else if behind f r then [par fn_bridge_parity_error_response_enable fn_sec_master_data_parity_error t f]
    else []).
Proof. exact upstream_status. Qed.
Theorem C44_downstream : forall root t ty f l f' acts, tlp_check t = Ok true -> fmt_type t = Ok ty -> route_of ty t <> TNone ->
  bars f 2 l (route_of ty t) -> br_downstream_recv root t f = Ok (f', acts) ->
  let r := route_of ty t in
  reports f f' (par fn_bridge_parity_error_response_enable fn_sec_master_data_parity_error t f ::
    if local_cfg r then []
    else if negb root && own f l r then
      [(fn_sec_received_target_abort, is_back r && (status t =? CA)); (fn_sec_received_master_abort, is_back r && (status t =? UR))]
    else if root || negb (behind f r) then [par fn_parity_error_response_enable fn_master_data_parity_error t f]
    else []).
Proof. exact downstream_status. Qed.
(** Functions of devices. *)
Theorem C44_function_recv : forall t ty f, tlp_check t = Ok true -> fmt_type t = Ok ty -> (exists k, type_fc ty = Ok k) ->
  exists f', fn_upstream_recv t f = Ok f' /\
  reports f f' [(fn_received_target_abort, type_in ty cpl_types && (status t =? CA)); (fn_received_master_abort, type_in ty cpl_types && (status t =? UR));
    par fn_parity_error_response_enable fn_master_data_parity_error t f].
Proof. exact fn_recv_status. Qed.
Theorem C44_function_send : forall t ty f, tlp_check t = Ok true -> fmt_type t = Ok ty -> (exists k, type_fc ty = Ok k) ->
  exists f', fn_send t f = Ok f' /\
  reports f f' [(fn_signaled_target_abort, type_in ty cpl_types && (status t =? CA)); par fn_parity_error_response_enable fn_master_data_parity_error t f].
Proof. exact fn_send_status. Qed.
(** What a bridge sends itself.  Missing: a completion with status CA sent down, whose bit is the wrong one (see below). *)
Theorem C44_send_partial : forall t ty f f' acts, tlp_check t = Ok true -> fmt_type t = Ok ty -> route_of ty t <> TNone -> br_send t f = Ok (f', acts) ->
  let r := route_of ty t in
  behind f r = false \/ status t <> CA ->
  reports f f' (if behind f r
    then [(fn_sec_signaled_target_abort, is_back r && (status t =? CA)); par fn_bridge_parity_error_response_enable fn_sec_master_data_parity_error t f]
    else [(fn_signaled_target_abort, is_back r && (status t =? CA)); par fn_parity_error_response_enable fn_master_data_parity_error t f]).
Proof. exact send_status. Qed.

(** ** C31: after any history, the function numbers of a device are distinct, in order, and between 0 and 7. *)
Theorem C31_functions : forall ops b, 0 <= b < 256 -> Forall dop_ok ops ->
  StronglySorted Z.lt (nums (dev_run ops (mkDev b []))) /\ Forall (fun n => 0 <= n < 8) (nums (dev_run ops (mkDev b []))).
Proof. exact functions_numbered. Qed.
(** Appending takes the lowest free number, and fails exactly if there is none. *)
Theorem C31_append : forall ops b x, 0 <= b < 256 -> Forall dop_ok ops ->
  let d := dev_run ops (mkDev b []) in
  match append_function x d with
  | Ok d' => exists n, least_free 0 (nums d) n /\ n < 8 /\ Permutation (nums d') (n :: nums d)
  | Err e => e = TypeError /\ forall m, 0 <= m < 8 -> In m (nums d)
  end.
Proof. exact functions_append. Qed.
(** Adding a function under its own number fails exactly if the number is in use. *)
Theorem C31_add : forall ops b x, 0 <= b < 256 -> Forall dop_ok ops -> 0 <= fnum x < 8 ->
  let d := dev_run ops (mkDev b []) in
  match add_function x d with
  | Ok d' => ~ In (fnum x) (nums d) /\ Permutation (nums d') (fnum x :: nums d)
  | Err e => e = PyException /\ In (fnum x) (nums d)
  end.
Proof. exact functions_add. Qed.
(** The functions of a device with several functions say so. *)
Theorem C31_multifunction : forall x d d', add_function x d = Ok d' -> (1 < length (d_fns d'))%nat ->
  Forall (fun y => f_attr (fst y) fn_multifunction_device = 1) (d_fns d').
Proof. exact multifunction. Qed.
(** A new port of a switch gets the lowest device number from 1 on that no other port has, and making it fails exactly if 1 to 31 are in use. *)
Theorem C31_ports : forall l, Forall id_ok l ->
  match add_endpoint 1 l with
  | Ok l' => exists n, least_free 1 (map device l) n /\ n < 32 /\ Permutation l' (mkId 0 n 0 :: l)
  | Err e => e = TypeError /\ forall m, 1 <= m < 32 -> In m (map device l)
  end.
Proof. exact ports. Qed.
(** So the ports of a switch have distinct numbers. *)
Theorem C31_ports_distinct : forall n l, make_ports n = Ok l -> NoDup (map device l) /\ Forall id_ok l /\ length l = n.
Proof. exact ports_distinct. Qed.

(** ** Examples *)
Ltac props := vm_compute; repeat split; try reflexivity; try discriminate; try solve [repeat constructor].
(** A new bridge is in the state that C29_windows starts from. *)
Definition br_fresh : fnc := mkFn bridge_init (fun _ => mkCap KMsi 5 0 6 None 0 (fun _ => 0)) [] [] (mkId 0 1 0).
Definition ws_ex : list (Z * Z * Z) := [(6, 0x00030100, 15); (7, 0x2010, 3); (8, 0x80f08000, 15); (9, 0x12f11200, 15); (10, 5, 15); (11, 5, 15)].
Definition br_ex : fnc := fold_left (fun f w => br_write (fst (fst w)) (snd (fst w)) (snd w) f) ws_ex br_fresh.
Example C29_windows_ex : programmed br_fresh /\ Forall (fun w => 0 <= snd w < 16) ws_ex /\ bus_range br_ex = (1, 3) /\
  io_window br_ex = (0x1000, 0x2fff) /\ mem_window br_ex = (0x80000000, 0x80ffffff) /\ pf_window br_ex = (0x512000000, 0x512ffffff).
Proof. split; [props|]. split; [repeat constructor; cbn; lia|props]. Qed.
Definition cfg_ex (b : Z) : tlp := set_tlen 1 (set_completer_id (mkId b 2 1) (set_fmt_type CFG_READ_1 tlp0)).
Definition mem_ex (a : Z) : tlp := set_tlen 1 (set_address a (set_fmt_type MEM_READ tlp0)).
Definition acts_of (r : res (fnc * list act)) : option (list act) := match r with Ok (_, l) => Some l | Err _ => None end.
Example C29_ex :
  tlp_check (cfg_ex 1) = Ok true /\ tlp_check (mem_ex 0x80001000) = Ok true /\ bars br_ex 2 [None; None] (TAddr false 0x80001000) /\
  acts_of (br_upstream_recv (cfg_ex 1) br_ex) = Some [Fwd Down (set_fmt_type CFG_READ_0 (cfg_ex 1))] /\
  acts_of (br_upstream_recv (cfg_ex 2) br_ex) = Some [Fwd Down (cfg_ex 2)] /\
  acts_of (br_upstream_recv (cfg_ex 4) br_ex) = Some [Free (cfg_ex 4); Ans Up (create_ur_completion (cfg_ex 4) (mkId 0 1 0))] /\
  acts_of (br_upstream_recv (mem_ex 0x80001000) br_ex) = Some [Fwd Down (mem_ex 0x80001000)] /\
  acts_of (br_downstream_recv false (mem_ex 0x80001000) br_ex) =
    Some [Free (mem_ex 0x80001000); Ans Down (create_ur_completion (mem_ex 0x80001000) (mkId 0 1 0))] /\
  acts_of (br_downstream_recv false (mem_ex 0x1000) br_ex) = Some [Fwd Up (mem_ex 0x1000)].
Proof. props. Qed.
(** Messages are not routed at all: a broadcast message, which is for everything behind the bridge, raises. *)
Definition bcast_ex : tlp := set_fmt_type MSG_BCAST tlp0.
Theorem C29_messages_refuted : exists t f, tlp_check t = Ok true /\ fmt_type t = Ok MSG_BCAST /\ match_secondary f t = Ok true /\
  br_upstream_recv t f = Err PyException.
Proof. exists bcast_ex, br_ex. props. Qed.

(** A completion with status CA from the bridge to its secondary side: the bit for the primary side is set, the right one is not. *)
Definition ca_ex : tlp := set_status CA (set_requester_id (mkId 2 0 0) (set_fmt_type CPL tlp0)).
Theorem C44_send_refuted : exists t f f', tlp_check t = Ok true /\ fmt_type t = Ok CPL /\ status t = CA /\ br_send t f = Ok (f', [Fwd Down t]) /\
  f_attr f' fn_sec_signaled_target_abort = 0 /\ f_attr f fn_signaled_target_abort = 0 /\ f_attr f' fn_signaled_target_abort = 1.
Proof.
  exists ca_ex, br_ex, (with_attr (aset fn_signaled_target_abort 1) br_ex). split; [reflexivity|]. split; [reflexivity|]. split; [reflexivity|].
  split; [vm_compute; reflexivity|]. props.
Qed.
(** A poisoned request and a completion with status UR. *)
Definition br_par : fnc := with_attr (fun s => aset fn_parity_error_response_enable 1 (aset fn_bridge_parity_error_response_enable 1 s)) br_ex.
Definition back_ex : tlp := set_status UR (set_requester_id (mkId 0 1 0) (set_fmt_type CPL tlp0)).
Definition bit_after (r : res (fnc * list act)) (a : attr) : option Z := match r with Ok (f, _) => Some (f_attr f a) | Err _ => None end.
Example C44_ex :
  bit_after (br_upstream_recv (set_ep true (mem_ex 0x80001000)) br_par) fn_master_data_parity_error = Some 1 /\
  bit_after (br_upstream_recv (set_ep true (mem_ex 0x80001000)) br_par) fn_sec_master_data_parity_error = Some 1 /\
  bit_after (br_upstream_recv (set_ep true (mem_ex 0x1000)) br_par) fn_sec_master_data_parity_error = Some 0 /\
  bit_after (br_upstream_recv back_ex br_ex) fn_received_master_abort = Some 1 /\
  bit_after (br_downstream_recv false back_ex br_ex) fn_sec_received_master_abort = Some 1 /\
  bit_after (br_downstream_recv false back_ex br_ex) fn_received_master_abort = Some 0.
Proof. props. Qed.

(** Numbers 0 and 2 are taken, the next ones are 1, 3, 4, ...; the ninth function is refused. *)
Definition fn_at (n : Z) : fnc * Z := (with_id (mkId 0 0 n) br_fresh, 6).
Example C31_ex :
  nums (dev_run [OAppend (fn_at 0); OAdd (fn_at 2); OAppend (fn_at 0); OBus 7; OAppend (fn_at 0)] (mkDev 0 [])) = [0; 1; 2; 3] /\
  nums (dev_run [OAdd (fn_at 2); OAdd (fn_at 2)] (mkDev 0 [])) = [2] /\
  nums (dev_run (repeat (OAppend (fn_at 0)) 9) (mkDev 0 [])) = [0; 1; 2; 3; 4; 5; 6; 7] /\
  append_function (fn_at 0) (dev_run (repeat (OAppend (fn_at 0)) 8) (mkDev 0 [])) = Err TypeError /\
  map device (match make_ports 3 with Ok l => l | Err _ => [] end) = [1; 2; 3] /\
  (exists l, make_ports 31 = Ok l) /\ make_ports 32 = Err TypeError /\
  match add_endpoint 1 [mkId 0 3 0; mkId 0 1 0; mkId 0 0 0] with Ok l => map device l = [0; 1; 2; 3] | Err _ => False end.
Proof. repeat split; try (vm_compute; reflexivity). eexists. vm_compute. reflexivity. Qed.

Print Assumptions C29_windows.
Print Assumptions C29_upstream.
Print Assumptions C29_converted.
Print Assumptions C29_downstream.
Print Assumptions C29_send.
Print Assumptions C44_upstream.
Print Assumptions C44_downstream.
Print Assumptions C44_function_recv.
Print Assumptions C44_function_send.
Print Assumptions C44_send_partial.
Print Assumptions C31_functions.
Print Assumptions C31_append.
Print Assumptions C31_add.
Print Assumptions C31_multifunction.
Print Assumptions C31_ports.
Print Assumptions C31_ports_distinct.
Print Assumptions C29_messages_refuted.
Print Assumptions C44_send_refuted.
