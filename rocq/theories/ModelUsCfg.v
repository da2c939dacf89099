(** The configuration interfaces of the UltraScale device models: xilinx/us/us_model.py:1175-1275, 1304-1400 and usp_model.py:1335-1430, 1453-1516:
    configuration management, status and flow control.  [plus]: the UltraScale+ model.  All optional signals are taken to be connected. *)
From Verif Require Import Base ModelUtils ModelTlp ModelAttrs ModelCapList ModelCaps ModelConfig ModelDllp ModelPort ModelTlCfg.

(** ** Status *)
(** [for k in range(len(l))], [status |= g(l[k], k)] *)
Fixpoint or_each {A} (g : A -> Z -> Z) (k : Z) (l : list A) (acc : Z) : Z :=
  match l with [] => acc | x :: l => or_each g (k + 1) l (Z.lor acc (g x k)) end.
(** us_model.py:1238-1245, usp_model.py:1389-1396 *)
Definition function_status (fs : list cfn) : Z :=
  or_each (fun f k => Z.lor (if zbool (w_fn f fn_bus_master_enable) then Z.shiftl 7 (k * 4) else 0) (if zbool (w_fn f fn_interrupt_disable) then Z.shiftl 8 (k * 4) else 0)) 0 fs 0.
(** us_model.py:1262-1267, usp_model.py:1418-1423 *)
Definition rcb_status (fs : list cfn) : Z := or_each (fun f k => if zbool (w_pe f pe_read_completion_boundary) then Z.shiftl 1 k else 0) 0 fs 0.
Definition bit_length (x : Z) : Z := if x =? 0 then 0 else Z.log2 (Z.abs x) + 1.
(** The signals of [_run_cfg_status_logic]. *)
Record ustat := mkStat { s_link_down : Z; s_lnk_up : Z; s_width : Z; s_speed : Z; s_mps : Z; s_mrrs : Z; s_func : Z; s_rcb : Z }.
(** us_model.py:1216-1267, usp_model.py:1367-1423; [reset]: [sys_reset] is connected and low.  [None]: [self.functions[0]] raises IndexError. *)
Definition us_status (plus reset : bool) (fs : list cfn) : option ustat :=
  match fs with
  | [] => None
  | f :: _ =>
    let pe := w_pe f in
    Some (mkStat (Z.b2z reset) (Z.b2z (negb reset))
      (if plus then Z.min (Z.max (bit_length (pe pe_negotiated_link_width) - 1) 0) 4 else pe pe_negotiated_link_width)
      (if plus then Z.min (Z.max (pe pe_current_link_speed - 1) 0) 3 else Z.shiftr (Z.shiftl 1 (Z.land (pe pe_current_link_speed) 3)) 1)
      (if plus then Z.land (pe pe_max_payload_size) 3 else pe pe_max_payload_size)
      (pe pe_max_read_request_size) (function_status fs) (rcb_status fs))
  end.
(** The errors reported: UltraScale has a flag [local_error] (us_model.py:1255-1257), UltraScale+ a queue (usp_model.py:1406-1412).  What is shown
    after a clock edge: the value, and for UltraScale+ whether it is valid. *)
Definition us_err_edge (flag : bool) : Z * bool := (Z.b2z flag, false).
Definition usp_err_edge (q : list Z) : Z * Z * list Z := match q with [] => (0, 0, []) | e :: q => (e, 1, q) end.

(** ** Flow control *)
Inductive fcsrc := SRxAvail | SRxAlloc | SRxRecv | STxAvail | STxLimit | STxCons.
Definition fc_get (x : fcsrc) (s : fcs) : Z :=
  match x with
  | SRxAvail => rx_credits_available s | SRxAlloc => rx_alloc s | SRxRecv => rx_recv s
  | STxAvail => tx_credits_available s | STxLimit => tx_limit s | STxCons => tx_cons s
  end.
(** us_model.py:1315-1378, usp_model.py:1464-1503: headers and data of posted, non-posted requests and completions.  [FcStateData] has no attribute
    [rx_credits_consumed] (core/port.py:80-151). *)
Definition us_fc_sel (plus : bool) (sel : Z) : res (option fcsrc) :=
  if plus then
    if sel =? 2 then Err AttributeError
    else Ok (if sel =? 4 then Some STxAvail else if sel =? 5 then Some STxLimit else if sel =? 6 then Some STxCons else None)
  else
    Ok (if sel =? 0 then Some SRxAvail else if sel =? 1 then Some SRxAlloc else if sel =? 2 then Some SRxRecv
        else if sel =? 4 then Some STxAvail else if sel =? 5 then Some STxLimit else if sel =? 6 then Some STxCons else None).
(** us_model.py:1380-1391, usp_model.py:1505-1516: (headers, data) *)
Definition us_fc (plus : bool) (sel : Z) (c : chan) : res (per3 (Z * Z)) :=
  x <- us_fc_sel plus sel ;;
  let g s := match x with Some x => fc_get x s | None => 0 end in
  let one ty := (Z.land (g (get3 ty (c_hdr c))) 0xff, Z.land (g (get3 ty (c_dat c))) 0xfff) in
  Ok (mk3 (one FC_P) (one FC_NP) (one FC_CPL)).

(** ** Configuration management *)
(** The inputs at a clock edge: function and register number, data, byte enables, read, write, and for UltraScale bit 18 of [cfg_mgmt_addr]. *)
Record minp := mkMi { mi_fn : nat; mi_reg : Z; mi_data : Z; mi_be : Z; mi_read : bool; mi_write : bool; mi_int : bool }.
(** us_model.py:1182-1184, usp_model.py:1342-1343: the function and register number *)
Definition us_mgmt_addr (a : Z) : nat * Z * bool := (Z.to_nat (Z.land (Z.shiftr a 10) 0x7f), Z.land a 0x3ff, zbool (Z.land a (Z.shiftl 1 18))).
(** The coroutine waits for the edge on which it samples ([MIdle]) or for the [n]-th of three edges, with what it has sampled; [MDead]: it has raised. *)
Inductive mphase := MIdle | MWait (n : nat) (i : minp) | MDead (e : exn).
Record mst := mkMst { mg_ph : mphase; mg_done : bool; mg_rdata : Z; mg_fns : list fnc }.
Definition fn_set (k : nat) (f : fnc) (l : list fnc) : list fnc := firstn k l ++ f :: skipn (S k) l.
(** us_model.py:1194-1207, usp_model.py:1352-1359, after the third edge *)
Definition mg_access (i : minp) (s : mst) : mst :=
  let die e := mkMst (MDead e) (mg_done s) (mg_rdata s) (mg_fns s) in
  let fin rd fns := mkMst MIdle true rd fns in
  if mi_int i then fin (mg_rdata s) (mg_fns s)
  else
    match nth_error (mg_fns s) (mi_fn i) with
    | None => die IndexError
    | Some f =>
      if mi_read i then
        match ep_read f (mi_reg i) with
        | Ok (Some v) => fin v (mg_fns s)
        | Ok None => die TypeError  (* None is assigned to the signal *)
        | Err e => die e
        end
      else fin (mg_rdata s) (fn_set (mi_fn i) (ep_write (mi_reg i) (mi_data i) (mi_be i) f) (mg_fns s))
    end.
(** A clock edge: us_model.py:1178-1207, usp_model.py:1338-1359 *)
Definition mg_edge (i : minp) (s : mst) : mst :=
  match mg_ph s with
  | MDead _ => s
  | MIdle =>
    if mg_done s then mkMst MIdle false (mg_rdata s) (mg_fns s)
    else if mi_read i || mi_write i then mkMst (MWait 0 i) false (mg_rdata s) (mg_fns s)
    else s
  | MWait n j => if Nat.eqb n 2 then mg_access j s else mkMst (MWait (S n) j) (mg_done s) (mg_rdata s) (mg_fns s)
  end.
(** The functions are changed by somebody else. *)
Definition mg_other (g : list fnc -> list fnc) (s : mst) : mst := mkMst (mg_ph s) (mg_done s) (mg_rdata s) (g (mg_fns s)).
