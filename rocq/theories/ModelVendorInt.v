(** The interrupt interfaces of the device models: xilinx/us/us_model.py:1427-1537, usp_model.py:1555-1663 [_run_cfg_int_logic],
    intel/s10/s10_model.py:823-845 [_run_int_logic].

    Sending a message may have to wait for credits: the coroutine goes on at a later time ([ISent]).  The message itself (the call of [mem_write]) is logged
    when it is issued.  All optional signals are taken to be connected. *)
From Verif Require Import Base ModelUtils ModelTlp ModelAttrs ModelCapList ModelCaps ModelConfig ModelMsi ModelTlCfg ModelUsCfg.

(** A message: function, attributes (UltraScale) or traffic class (Stratix 10), address and data. *)
Record imsg := mkIm { im_fn : nat; im_attr : Z; im_addr : Z; im_bytes : list Z }.

(** ** UltraScale *)
(** The inputs sampled at us_model.py:1433-1463 *)
Record iin := mkIin { i_msi : Z; i_fn : nat; i_attr : Z; i_sel : nat; i_pen : bool; i_pfn : nat; i_pend : Z; i_msix : bool; i_xaddr : Z; i_xdata : Z }.
(** The outputs; [cfg_interrupt_msi_fail] and [cfg_interrupt_msix_fail] are only ever set to 0. *)
Record iout := mkIout { o_en : Z; o_sent : Z; o_mm : Z; o_data : Z; o_xen : Z; o_xmask : Z; o_xsent : Z }.
Inductive iphase := IIdle | IMsi (i : iin) | IMsix (i : iin) | IDead (e : exn).
Record ist := mkIst { i_ph : iphase; i_out : iout; i_fns : list cfn; i_log : list imsg }.
Definition set_en v o := mkIout v (o_sent o) (o_mm o) (o_data o) (o_xen o) (o_xmask o) (o_xsent o).
Definition set_sent v o := mkIout (o_en o) v (o_mm o) (o_data o) (o_xen o) (o_xmask o) (o_xsent o).
Definition set_mm v o := mkIout (o_en o) (o_sent o) v (o_data o) (o_xen o) (o_xmask o) (o_xsent o).
Definition set_mdata v o := mkIout (o_en o) (o_sent o) (o_mm o) v (o_xen o) (o_xmask o) (o_xsent o).
Definition set_x en m o := mkIout (o_en o) (o_sent o) (o_mm o) (o_data o) en m (o_xsent o).
Definition set_xsent v o := mkIout (o_en o) (o_sent o) (o_mm o) (o_data o) (o_xen o) (o_xmask o) v.
(** us_model.py:1485: [bits] *)
Definition int_bits (v : Z) : list Z := filter (fun k => zbool (Z.land (Z.shiftr v k) 1)) (map Z.of_nat (List.seq 0 32)).
Definition on_nth (k : nat) (g : cfn -> cfn) (l : list cfn) : list cfn := match nth_error l k with Some f => firstn k l ++ g f :: skipn (S k) l | None => l end.
Definition set_ms (g : attrs -> attrs) (f : cfn) : cfn := mkCfn (w_id f) (w_fn f) (w_pe f) (w_pm f) (g (w_ms f)) (w_mx f) (w_ae f).
(** us_model.py:1471-1476, 1492-1496, 1513-1526: bits of the first [n] functions *)
Definition en_word (n : nat) (fs : list cfn) : Z := or_each (fun f k => if zbool (w_ms f ms_msi_enable) then Z.shiftl 1 k else 0) 0 (firstn n fs) 0.
Definition mm_word (n : nat) (fs : list cfn) : Z := or_each (fun f k => Z.shiftl (Z.land (w_ms f ms_msi_multiple_message_enable) 7) (k * 3)) 0 (firstn n fs) 0.
Definition xen_word (n : nat) (fs : list cfn) : Z := or_each (fun f k => if zbool (w_mx f mx_msix_enable) then Z.shiftl 1 k else 0) 0 (firstn n fs) 0.
Definition xmask_word (n : nat) (fs : list cfn) : Z := or_each (fun f k => if zbool (w_mx f mx_msix_function_mask) then Z.shiftl 1 k else 0) 0 (firstn n fs) 0.
Definition int_die (e : exn) (s : ist) : ist := mkIst (IDead e) (i_out s) (i_fns s) (i_log s).
(** us_model.py:1492-1535, usp_model.py:1618-1661: after the MSI, up to the MSI-X message *)
Definition int_rest (plus : bool) (i : iin) (s : ist) : ist :=
  let fs := i_fns s in
  let o := set_mm (mm_word 2 fs) (i_out s) in
  let o := set_mdata (if Nat.eqb (i_sel i) 15 then 0 else match nth_error fs (i_sel i) with Some f => w_ms f ms_msi_mask_bits | None => 0 end) o in
  let fs := if i_pen i then on_nth (i_pfn i) (set_ms (aset ms_msi_pending_bits (i_pend i))) fs else fs in
  let n := if plus then 4%nat else 2%nat in
  let o := set_xsent 0 (set_x (xen_word n fs) (xmask_word n fs) o) in
  let s := mkIst IIdle o fs (i_log s) in
  if i_msix i then
    match nth_error fs (i_fn i) with
    | None => s
    | Some f =>
      match issue_msix (w_mx f) (i_xaddr i) (i_xdata i) with
      | Err e => int_die e s
      | Ok (a, d) => mkIst (IMsix i) o fs (i_log s ++ [mkIm (i_fn i) (i_attr i) a d])
      end
    end
  else s.
(** us_model.py:1430-1488, usp_model.py:1558-1614: a clock edge up to the MSI message *)
Definition int_edge (plus : bool) (i : iin) (s : ist) : ist :=
  match i_ph s with
  | IIdle =>
    let fs := i_fns s in
    let s := mkIst IIdle (set_sent 0 (set_en (en_word 2 fs) (i_out s))) fs (i_log s) in
    match int_bits (i_msi i), nth_error fs (i_fn i) with
    | [n], Some f =>
      match issue_msi (w_ms f) n with
      | Err e => int_die e s
      | Ok (a, d) => mkIst (IMsi i) (i_out s) fs (i_log s ++ [mkIm (i_fn i) (i_attr i) a d])
      end
    | _, _ => int_rest plus i s
    end
  | _ => s
  end.
(** The message has been sent: us_model.py:1489-1490, 1536-1537.  [None]: there was none. *)
Definition int_sent (plus : bool) (s : ist) : option ist :=
  match i_ph s with
  | IMsi i => Some (int_rest plus i (mkIst IIdle (set_sent 1 (i_out s)) (i_fns s) (i_log s)))
  | IMsix i => Some (mkIst IIdle (set_xsent 1 (i_out s)) (i_fns s) (i_log s))
  | _ => None
  end.
Definition int_other (g : list cfn -> list cfn) (s : ist) : ist := mkIst (i_ph s) (i_out s) (g (i_fns s)) (i_log s).

(** ** Stratix 10 *)
(** [app_msi_req], [app_msi_func_num], [app_msi_num], [app_msi_tc] at a clock edge.  While it waits for [RisingEdge(app_msi_req)] (830-832) the coroutine
    has seen a low [app_msi_req]; so at the next clock edge at which it is high it has risen, and the coroutine is waiting for that edge. *)
Record sin := mkSin { a_req : bool; a_fn : nat; a_num : Z; a_tc : Z }.
Inductive sphase := AIdle | ASend | AAck | AHold | ADead (e : exn).
Record sst := mkSst { a_ph : sphase; a_ack : bool; a_fns : list cfn; a_log : list imsg }.
(** s10_model.py:827-845 *)
Definition s10_edge (i : sin) (s : sst) : sst :=
  match a_ph s with
  | AIdle =>
    if a_req i then
      match nth_error (a_fns s) (a_fn i) with
      | None => mkSst (ADead IndexError) (a_ack s) (a_fns s) (a_log s)
      | Some f =>
        match issue_msi (w_ms f) (a_num i) with
        | Err e => mkSst (ADead e) (a_ack s) (a_fns s) (a_log s)
        | Ok (x, d) => mkSst ASend (a_ack s) (a_fns s) (a_log s ++ [mkIm (a_fn i) (a_tc i) x d])
        end
      end
    else s
  | AAck => mkSst (if a_req i then AHold else AIdle) false (a_fns s) (a_log s)
  | AHold => mkSst (if a_req i then AHold else AIdle) (a_ack s) (a_fns s) (a_log s)
  | ASend | ADead _ => s
  end.
(** s10_model.py:840: the message has been sent.  [None]: there was none. *)
Definition s10_sent (s : sst) : option sst := match a_ph s with ASend => Some (mkSst AAck true (a_fns s) (a_log s)) | _ => None end.
Definition s10_other (g : list cfn -> list cfn) (s : sst) : sst := mkSst (a_ph s) (a_ack s) (g (a_fns s)) (a_log s).
