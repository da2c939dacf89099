(** Routing: core/bridge.py:279-462, core/device.py, core/switch.py.

    What a method does with the TLP it was called with is a list of actions.  Logging is left out. *)
From Verif Require Import Base ModelUtils ModelTlp ModelAttrs ModelCaps ModelCapList ModelConfig ModelFunction.

Inductive dir := Up | Down.
(** [Fwd]: the TLP is given to a transmit handler; [Ans]: a new TLP is; [Own]: [handle_tlp] is called; [Free]: [release_fc]. *)
Inductive act := Fwd (d : dir) (t : tlp) | Ans (d : dir) (t : tlp) | Own (t : tlp) | Free (t : tlp).

(** core/bridge.py:279-312 *)
Definition match_secondary (f : fnc) (t : tlp) : res bool :=
  let s := f_attr f in
  let by_id i := (s fn_sec_bus_num <=? bus i) && (bus i <=? s fn_sub_bus_num) && negb (id_eqb i id0) in
  let within lo hi := (s lo <=? address t) && (address t <=? s hi) in
  ty <- fmt_type t ;;
  match ty with
  | CFG_READ_0 | CFG_WRITE_0 => Ok false
  | CFG_READ_1 | CFG_WRITE_1 => Ok (by_id (completer_id t))
  | CPL | CPL_DATA | CPL_LOCKED | CPL_LOCKED_DATA => Ok (by_id (requester_id t))
  | MSG_ID | MSG_DATA_ID => Ok (by_id (completer_id t))
  | IO_READ | IO_WRITE => Ok (within fn_io_base fn_io_limit)
  | MEM_READ | MEM_READ_64 | MEM_WRITE | MEM_WRITE_64 =>
    Ok (within fn_mem_base fn_mem_limit || within fn_prefetchable_mem_base fn_prefetchable_mem_limit)
  | MSG_TO_RC | MSG_DATA_TO_RC => Ok false
  | MSG_BCAST | MSG_DATA_BCAST => Ok true
  | MSG_LOCAL | MSG_DATA_LOCAL => Ok false
  | MSG_GATHER | MSG_DATA_GATHER => Ok false
  | _ => Err PyException
  end.

(** core/bridge.py:314-321 (as [Function.upstream_send]) and 388-395: what changes in the bridge when it sends. *)
Definition br_sends (d : dir) (t : tlp) (f : fnc) : res fnc :=
  match d with
  | Up => fn_upstream_send t f
  | Down =>
    ok <- tlp_check t ;;
    _ <- py_assert ok ;;
    Ok (if zbool (f_attr f fn_bridge_parity_error_response_enable) && ep t
        then with_attr (aset fn_sec_master_data_parity_error 1) f else f)
  end.
Definition send_to (d : dir) (t : tlp) (f : fnc) : res (fnc * list act) := f <- br_sends d t f ;; Ok (f, [Fwd d t]).
(** core/bridge.py:354-383, 420-448, core/switch.py:196-226, core/device.py:134-163: a TLP without target, the requester is towards [d];
    [None] if there is no answer.  [cid] is the completer of the answer. *)
Definition unrouted (ty : tlp_type) (cid : pcie_id) (t : tlp) : res (option tlp) :=
  match ty with
  | CFG_READ_0 | CFG_WRITE_0 | CFG_READ_1 | CFG_WRITE_1 | IO_READ | IO_WRITE | MEM_READ | MEM_READ_64 =>
    Ok (Some (create_ur_completion t cid))
  | CPL | CPL_DATA | CPL_LOCKED | CPL_LOCKED_DATA => Ok None
  | MEM_WRITE | MEM_WRITE_64 => Ok None
  | _ => Err PyException
  end.
Definition br_unrouted (d : dir) (ty : tlp_type) (t : tlp) (f : fnc) : res (fnc * list act) :=
  a <- unrouted ty (f_id f) t ;;
  match a with
  | None => Ok (f, [Free t])
  | Some c => f <- br_sends d c f ;; Ok (f, [Free t; Ans d c])
  end.
(** core/bridge.py:333-341, 408-416: status of a completion for the bridge itself. *)
Definition note_status (ta ma : attr) (t : tlp) (f : fnc) : res fnc :=
  c <- is_completion t ;;
  Ok (if c then
        if status t =? CA then with_attr (aset ta 1) f
        else if status t =? UR then with_attr (aset ma 1) f
        else f
      else f).

(** core/bridge.py:323-383; bridges have two BARs. *)
Definition br_upstream_recv (t : tlp) (f : fnc) : res (fnc * list act) :=
  ok <- tlp_check t ;;
  _ <- py_assert ok ;;
  let f := if zbool (f_attr f fn_parity_error_response_enable) && ep t
           then with_attr (aset fn_master_data_parity_error 1) f else f in
  m <- match_tlp 2 f t ;;
  if m then
    f <- note_status fn_received_target_abort fn_received_master_abort t f ;;
    Ok (f, [Own t])
  else
    s <- match_secondary f t ;;
    ty <- fmt_type t ;;
    if s then
      send_to Down (if bus (completer_id t) =? f_attr f fn_sec_bus_num then
                      match ty with
                      | CFG_READ_1 => set_fmt_type CFG_READ_0 t
                      | CFG_WRITE_1 => set_fmt_type CFG_WRITE_0 t
                      | _ => t
                      end
                    else t) f
    else br_unrouted Up ty t f.

(** core/bridge.py:397-448 *)
Definition br_downstream_recv (root : bool) (t : tlp) (f : fnc) : res (fnc * list act) :=
  ok <- tlp_check t ;;
  _ <- py_assert ok ;;
  let f := if zbool (f_attr f fn_bridge_parity_error_response_enable) && ep t
           then with_attr (aset fn_sec_master_data_parity_error 1) f else f in
  ty <- fmt_type t ;;
  if type_in ty cfg_types then br_unrouted Down ty t f
  else
    m <- (if root then Ok false else match_tlp 2 f t) ;;
    if m then
      f <- note_status fn_sec_received_target_abort fn_sec_received_master_abort t f ;;
      Ok (f, [Own t])
    else
      s <- match_secondary f t ;;
      if negb s || root then send_to Up t f
      else br_unrouted Down ty t f.

(** core/bridge.py:450-461: a TLP that the bridge itself sends. *)
Definition br_send (t : tlp) (f : fnc) : res (fnc * list act) :=
  s <- match_secondary f t ;;
  c <- is_completion t ;;
  let f := if c && (status t =? CA) then with_attr (aset fn_signaled_target_abort 1) f else f in
  send_to (if s then Down else Up) t f.

(** core/function.py:447-461 [handle_tlp] in a bridge, which has the handlers of core/function.py:113-114 only; a completion is put into
    the queue of its tag. *)
Inductive handled := Kept | Answered (t : tlp).
Definition br_handle (t : tlp) (f : fnc) : res (fnc * handled) :=
  ty <- fmt_type t ;;
  match ty with
  | CPL | CPL_DATA | CPL_LOCKED | CPL_LOCKED_DATA => Ok (f, Kept)
  | CFG_READ_0 => '(f, c) <- handle_config_0_read br_read t f ;; Ok (f, Answered c)
  | CFG_WRITE_0 => '(f, c) <- handle_config_0_write br_write t f ;; Ok (f, Answered c)
  | _ => Err PyException
  end.

(** ** Numbers *)
(** [list.sort(key=...)] *)
Fixpoint insert_by {A} (le : A -> A -> bool) (x : A) (l : list A) : list A :=
  match l with
  | [] => [x]
  | y :: r => if le x y then x :: l else y :: insert_by le x r
  end.
Definition sort_by {A} (le : A -> A -> bool) (l : list A) : list A := fold_right (insert_by le) [] l.

(** core/device.py: functions with their number of BARs, in the order of [functions]. *)
Record dev := mkDev { d_bus : Z; d_fns : list (fnc * Z) }.
Definition fnum (x : fnc * Z) : Z := func (f_id (fst x)).
Definition sort_fns : list (fnc * Z) -> list (fnc * Z) := sort_by (fun x y => fnum x <=? fnum y).
(** core/device.py:77-86 *)
Fixpoint gap (i : Z) (l : list (fnc * Z)) : option Z :=
  match l with
  | [] => None
  | x :: r => if negb (fnum x =? i) then Some i else gap (i + 1) r
  end.
Definition next_free_function_number (l : list (fnc * Z)) : option Z :=
  match l with
  | [] => Some 0
  | _ => match gap 0 l with
         | Some i => Some i
         | None => if zlen l <? 8 then Some (zlen l) else None
         end
  end.
(** core/device.py:88-98 *)
Definition add_function (x : fnc * Z) (d : dev) : res dev :=
  if existsb (fun y => fnum y =? fnum x) (d_fns d) then Err PyException
  else
    let l := sort_fns (d_fns d ++ [x]) in
    Ok (mkDev (d_bus d)
         (if 1 <? zlen l then map (fun y => (with_attr (aset fn_multifunction_device 1) (fst y), snd y)) l else l)).
(** core/utils.py:48-59 with [None] for a number: the comparison raises. *)
Definition id_new_opt (b : Z) (d f : option Z) : res pcie_id :=
  if (b <? 0) || (b >? 255) then Err ValueError
  else match d with
       | None => Err TypeError
       | Some d => if (d <? 0) || (d >? 31) then Err ValueError
                   else match f with
                        | None => Err TypeError
                        | Some f => pcie_id_new b d f
                        end
       end.
(** core/device.py:100-102 *)
Definition append_function (x : fnc * Z) (d : dev) : res dev :=
  let d := mkDev (d_bus d) (sort_fns (d_fns d)) in
  i <- id_new_opt (d_bus d) (Some 0) (next_free_function_number (d_fns d)) ;;
  add_function (with_id i (fst x), snd x) d.

(** core/switch.py:104-126: the IDs of [endpoints]. *)
Definition dnum_le (a b : pcie_id) : bool :=
  (device a <? device b) || ((device a =? device b) && (func a <=? func b)).
Fixpoint free_from (d : Z) (l : list pcie_id) : option Z :=
  match l with
  | [] => if d <? 32 then Some d else None
  | e :: r => if device e >? d then Some d else free_from (device e + 1) r
  end.
Definition next_free_device_number (min_dev : Z) (l : list pcie_id) : option Z :=
  match sort_by dnum_le l with
  | [] => Some min_dev
  | l => free_from min_dev l
  end.
Definition append_endpoint (i : pcie_id) (l : list pcie_id) : list pcie_id := sort_by dnum_le (l ++ [i]).
Definition add_endpoint (min_dev : Z) (l : list pcie_id) : res (list pcie_id) :=
  i <- id_new_opt 0 (next_free_device_number min_dev l) (Some 0) ;;
  Ok (append_endpoint i (sort_by dnum_le l)).

(** ** Devices *)
(** core/device.py:66-75 *)
Definition set_bus (b : Z) (d : dev) : res dev :=
  if (b <? 0) || (b >? 255) then Err ValueError
  else if d_bus d =? b then Ok d
  else Ok (mkDev b (map (fun x => (with_id (mkId b (device (f_id (fst x))) (func (f_id (fst x)))) (fst x), snd x)) (d_fns d))).
(** [for f in self.functions: if f.match_tlp(tlp): ...]: the position of the first that matches. *)
Fixpoint first_fn (k : nat) (l : list (fnc * Z)) (t : tlp) : res (option nat) :=
  match l with
  | [] => Ok None
  | (f, n) :: r => m <- match_tlp n f t ;; if m then Ok (Some k) else first_fn (S k) r t
  end.
Inductive dact := DTo (k : nat) (t : tlp) | DFree (t : tlp) | DAns (t : tlp).
(** core/device.py:117-163; [f.upstream_recv] is [fn_upstream_recv] followed by [handle_tlp]. *)
Definition dev_upstream_recv (t : tlp) (d : dev) : res (dev * list dact) :=
  ok <- tlp_check t ;;
  _ <- py_assert ok ;;
  ty <- fmt_type t ;;
  d <- (match ty with CFG_READ_0 | CFG_WRITE_0 => set_bus (bus (completer_id t)) d | _ => Ok d end) ;;
  k <- first_fn 0 (d_fns d) t ;;
  match k with
  | Some k => Ok (d, [DTo k t])
  | None =>
    a <- unrouted ty (mkId (d_bus d) 0 0) t ;;
    match a with
    | None => Ok (d, [DFree t])
    | Some c => ok <- tlp_check c ;; _ <- py_assert ok ;; Ok (d, [DFree t; DAns c])
    end
  end.

(** ** Switches *)
(** Port 0 is the upstream port, whose bridge is a host bridge if [root]; the others are downstream ports.  Every TLP object has a number,
    [sw_next] is the next one.  [sw_ing i]: [ingress_queue], [Queue(1)], together with the TLPs whose [put] waits for it; [sw_q i j]: from port
    i to port j.  [sw_log] holds, latest first, what entered and left the switch. *)
Definition pkt : Type := nat * tlp.
Inductive ev :=
| EIn (i : nat) (p : pkt)                       (* received on the link of port i (from the host, for the upstream port of a root complex) *)
| EOut (i : nat) (p : pkt)                      (* sent on the link of port i (to the host, for the upstream port of a root complex) *)
| EKept (i : nat) (p : pkt)                     (* a completion for the bridge of port i *)
| EFree (i : nat) (p : pkt) (a : option pkt).   (* credits released; the answer *)
Record sw := mkSw {
  sw_root : bool;
  sw_br : list fnc;
  sw_ing : nat -> list pkt;
  sw_q : nat -> nat -> list pkt;
  sw_next : nat;
  sw_log : list ev
}.
Definition upd {A} (f : nat -> A) (i : nat) (v : A) : nat -> A := fun j => if Nat.eqb j i then v else f j.
Definition set_nth {A} (i : nat) (v : A) (l : list A) : list A := firstn i l ++ match skipn i l with [] => [] | _ :: r => v :: r end.
Definition sw_set_br i f s := mkSw (sw_root s) (set_nth i f (sw_br s)) (sw_ing s) (sw_q s) (sw_next s) (sw_log s).
Definition sw_put_ing i p s := mkSw (sw_root s) (sw_br s) (upd (sw_ing s) i (sw_ing s i ++ [p])) (sw_q s) (sw_next s) (sw_log s).
Definition sw_set_ing i l s := mkSw (sw_root s) (sw_br s) (upd (sw_ing s) i l) (sw_q s) (sw_next s) (sw_log s).
Definition sw_set_q i j l s := mkSw (sw_root s) (sw_br s) (sw_ing s) (upd (sw_q s) i (upd (sw_q s i) j l)) (sw_next s) (sw_log s).
Definition sw_fresh s := mkSw (sw_root s) (sw_br s) (sw_ing s) (sw_q s) (S (sw_next s)) (sw_log s).
Definition sw_note e s := mkSw (sw_root s) (sw_br s) (sw_ing s) (sw_q s) (sw_next s) (e :: sw_log s).
Definition is_up (i : nat) : bool := Nat.eqb i 0.
(** Transmit handlers: core/switch.py:50-64, core/bridge.py:477-483, 500-506, core/rc.py:70.  The handler of the upper side of the upstream
    port and of the lower side of a downstream port is the link. *)
Definition emit (i : nat) (d : dir) (p : pkt) (s : sw) : sw :=
  match d, is_up i with
  | Up, true | Down, false => sw_note (EOut i p) s
  | _, _ => sw_put_ing i p s
  end.
(** A TLP created by port [i] and sent towards [d]. *)
Definition emit_new (i : nat) (d : dir) (t : tlp) (s : sw) : sw := emit i d (sw_next s, t) (sw_fresh s).
(** What the bridge of port [i] does with TLP [p], which it received on its upper ([Down]: travelling down) or lower side. *)
Definition sw_recv (i : nat) (d : dir) (p : pkt) (s : sw) : res sw :=
  match nth_error (sw_br s) i with
  | None => Err PyException
  | Some f =>
    '(f, l) <- (match d with Down => br_upstream_recv (snd p) f | Up => br_downstream_recv (sw_root s && is_up i) (snd p) f end) ;;
    match l with
    | [Fwd d t] => Ok (emit i d (fst p, t) (sw_set_br i f s))
    | [Free t] => Ok (sw_note (EFree i (fst p, t) None) (sw_set_br i f s))
    | [Free t; Ans d c] => Ok (emit_new i d c (sw_note (EFree i (fst p, t) (Some (sw_next s, c))) (sw_set_br i f s)))
    | [Own t] =>
      '(f, h) <- br_handle t f ;;
      match h with
      | Kept => Ok (sw_note (EKept i (fst p, t)) (sw_set_br i f s))
      | Answered c => Ok (emit_new i Up c (sw_note (EFree i (fst p, t) (Some (sw_next s, c))) (sw_set_br i f s)))
      end
    | _ => Err PyException
    end
  end.
(** core/switch.py:166-168: the other ports, in the order in which they were added. *)
Definition others (i n : nat) : list nat := filter (fun j => negb (Nat.eqb j i)) (List.seq 0 n).
(** core/switch.py:170-191 *)
Definition claims (s : sw) (j : nat) (t : tlp) : res bool :=
  match nth_error (sw_br s) j with
  | None => Err PyException
  | Some f =>
    m <- match_tlp 2 f t ;;
    if m then Ok true
    else b <- match_secondary f t ;; Ok (if is_up j then negb b else b)
  end.
Fixpoint first_port (s : sw) (l : list nat) (t : tlp) : res (option nat) :=
  match l with
  | [] => Ok None
  | j :: r => c <- claims s j t ;; if c then Ok (Some j) else first_port s r t
  end.
(** The handler for TLPs from the switch: [bridge.downstream_recv] in the upstream port, [bridge.upstream_recv] in the others. *)
Definition sw_egress (i : nat) : dir := if is_up i then Up else Down.
(** core/switch.py:166-226: one iteration of [_run_routing] of port [i] (nothing if its queue is empty). *)
Definition sw_route (i : nat) (s : sw) : res sw :=
  match sw_ing s i, nth_error (sw_br s) i with
  | p :: r, Some f =>
    let s := sw_set_ing i r s in
    k <- first_port s (others i (length (sw_br s))) (snd p) ;;
    match k with
    | Some j => Ok (sw_set_q i j (sw_q s i j ++ [p]) s)
    | None =>
      ty <- fmt_type (snd p) ;;
      a <- unrouted ty (f_id f) (snd p) ;;
      match a with
      | None => Ok (sw_note (EFree i p None) s)
      | Some c => sw_recv i (sw_egress i) (sw_next s, c) (sw_fresh (sw_note (EFree i p (Some (sw_next s, c))) s))
      end
    end
  | _, _ => Ok s
  end.
(** core/switch.py:228-243: [_run_arbitration] of port [j] takes a TLP from port [i]; the queues are served in any order here. *)
Definition sw_transfer (i j : nat) (s : sw) : res sw :=
  match sw_q s i j with
  | [] => Ok s
  | p :: r => sw_recv j (sw_egress j) p (sw_set_q i j r s)
  end.
Inductive sop := SIn (i : nat) (t : tlp) | SRoute (i : nat) | STransfer (i j : nat).
(** A TLP arrives from outside: from above at the upstream port, from below at a downstream port. *)
Definition sw_step (o : sop) (s : sw) : res sw :=
  match o with
  | SIn i t => sw_recv i (if is_up i then Down else Up) (sw_next s, t) (sw_fresh (sw_note (EIn i (sw_next s, t)) s))
  | SRoute i => sw_route i s
  | STransfer i j => sw_transfer i j s
  end.
Fixpoint sw_run (l : list sop) (s : sw) : res sw :=
  match l with
  | [] => Ok s
  | o :: l => s <- sw_step o s ;; sw_run l s
  end.
Definition sw0 (root : bool) (l : list fnc) : sw := mkSw root l (fun _ => []) (fun _ _ => []) 0 [].
