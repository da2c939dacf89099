(** intel/s10/s10_model.py and intel/ptile/ptile_model.py: the device models behind the two streams.

    Line numbers are those of s10_model.py / ptile_model.py.  The coroutines are modelled by their segments between two [await]s; the segments may
    occur in every order.  An exception ends the execution ([Err]). *)
From Verif Require Import Base ModelUtils ModelTlp ModelFrames ModelIntel ModelConfig ModelFunction ModelRoute ModelUsDev.

(** Which device, and [rx_buf_cplh_fc_limit], [rx_buf_cpld_fc_limit]: 260-261 / 333-343 *)
Record iopt := mkIopt { io_tile : ModelIntel.dev; io_cplh : Z; io_cpld : Z }.
Definition s10_opt : iopt := mkIopt HTile 770 2432.
Definition ptile_opt (port_num : Z) : iopt :=
  if port_num =? 0 then mkIopt PTile 1144 2888 else if port_num =? 1 then mkIopt PTile 572 1444 else mkIopt PTile 286 722.

(** [frame.bar_range] and [frame.func_num] *)
Definition with_range (b fn : Z) (f : pt_frame) : pt_frame :=
  mkPt (t_prfx f) (t_hdr f) (t_data f) (t_prfx_par f) (t_hdr_par f) (t_parity f) fn (t_vf f) b (t_abort f) (t_err f).
(** What becomes of a TLP: it goes to a function ([f.upstream_recv]), to the receive buffer as a completion, to the queue as a request, it is
    answered or discarded. *)
Inductive iact := XFn (k : nat) | XCpl (g : pt_frame) | XReq (g : pt_frame) | XAnswer (c : tlp) | XDrop.
(** 611-716 / 757-862 [upstream_recv] without the completion buffer; credits are not part of it. *)
Definition intel_recv (v : ModelIntel.dev) (t : tlp) (d : dev) : res (dev * iact) :=
  ty <- fmt_type t ;;
  let unsupported d :=
    let c := create_ur_completion t (mkId (d_bus d) 0 0) in ok <- tlp_check c ;; _ <- py_assert ok ;; Ok (d, XAnswer c) in
  let request io :=
    b <- first_bar io (address t) (d_fns d) ;;
    match b with
    | Some (_, i) => g <- frame_of_tlp v t ;; Ok (d, XReq (with_range (if io then 6 else i) (func (requester_id t)) g))
    | None => match ty with MEM_WRITE | MEM_WRITE_64 => Ok (d, XDrop) | _ => unsupported d end
    end in
  match ty with
  | CFG_READ_0 | CFG_WRITE_0 =>
    d <- set_bus (bus (completer_id t)) d ;;
    match by_id 0 (completer_id t) (d_fns d) with
    | Some k => Ok (d, XFn k)
    | None => unsupported d
    end
  | CFG_READ_1 | CFG_WRITE_1 => unsupported d
  | CPL | CPL_DATA | CPL_LOCKED | CPL_LOCKED_DATA =>
    match by_id 0 (requester_id t) (d_fns d) with
    | Some _ => g <- frame_of_tlp v t ;; Ok (d, XCpl (with_range (t_bar g) (func (requester_id t)) g))
    | None => Ok (d, XDrop)
    end
  | IO_READ | IO_WRITE => request true
  | MEM_READ | MEM_READ_64 | MEM_WRITE | MEM_WRITE_64 => request false
  | _ => Err PyException
  end.

(** What happened, oldest first; only the specification looks at it. *)
Inductive ievent :=
| JIn (t : tlp) (a : iact) (kept : bool)   (** a TLP was received; [kept] is false if a completion found no space *)
| JOut (g : pt_frame)                      (** given to the RX stream *)
| JTx (f : pt_frame) (t : tlp).            (** a frame of the TX stream was sent as [t] *)
(** [y_q]: [rx_queue]; [y_busy]: what [_run_rx_logic] is sending; [y_hc], [y_dc]: [rx_buf_cplh_fc_count], [rx_buf_cpld_fc_count]. *)
Record idev := mkIdev { y_dev : dev; y_q : list (tlp * pt_frame); y_busy : option (tlp * pt_frame); y_hc : Z; y_dc : Z; y_log : list ievent }.
Definition idev0 (d : dev) : idev := mkIdev d [] None 0 0 [].
Inductive ilabel :=
| IConfig (d : dev)       (** configuration accesses change the functions *)
| IRecv (t : tlp)         (** [upstream_recv] *)
| IGet                    (** [_run_rx_logic] takes an item from the queue, 757-758 / 899-900 *)
| IDone                   (** ... has sent it, 760-761 / 902-903 *)
| ITx (f : pt_frame).     (** [_run_tx_logic] gets a frame, 763-767 / 905-909 *)
Definition istep (o : iopt) (l : ilabel) (s : idev) : res idev :=
  match l with
  | IConfig d => Ok (mkIdev d (y_q s) (y_busy s) (y_hc s) (y_dc s) (y_log s))
  | IRecv t =>
    '(d, a) <- intel_recv (io_tile o) t (y_dev s) ;;
    match a with
    | XCpl g =>
      let n := get_data_credits t in
      if (y_hc s + 1 <=? io_cplh o) && (y_dc s + n <=? io_cpld o)
      then Ok (mkIdev d (y_q s ++ [(t, g)]) (y_busy s) (y_hc s + 1) (y_dc s + n) (y_log s ++ [JIn t a true]))
      else Ok (mkIdev d (y_q s) (y_busy s) (y_hc s) (y_dc s) (y_log s ++ [JIn t a false]))
    | XReq g => Ok (mkIdev d (y_q s ++ [(t, g)]) (y_busy s) (y_hc s) (y_dc s) (y_log s ++ [JIn t a true]))
    | _ => Ok (mkIdev d (y_q s) (y_busy s) (y_hc s) (y_dc s) (y_log s ++ [JIn t a true]))
    end
  | IGet =>
    match y_busy s, y_q s with
    | None, (t, g) :: r => Ok (mkIdev (y_dev s) r (Some (t, g)) (y_hc s) (y_dc s) (y_log s ++ [JOut g]))
    | _, _ => Ok s
    end
  | IDone =>
    match y_busy s with
    | Some (t, g) => Ok (mkIdev (y_dev s) (y_q s) None (Z.max (y_hc s - 1) 0) (Z.max (y_dc s - get_data_credits t) 0) (y_log s))
    | None => Ok s
    end
  | ITx f =>
    t <- tlp_of_frame (io_tile o) f ;;
    ok <- tlp_check t ;; _ <- py_assert ok ;;
    Ok (mkIdev (y_dev s) (y_q s) (y_busy s) (y_hc s) (y_dc s) (y_log s ++ [JTx f t]))
  end.
Fixpoint irun (o : iopt) (l : list ilabel) (s : idev) : res idev :=
  match l with [] => Ok s | x :: l => s <- istep o x s ;; irun o l s end.
