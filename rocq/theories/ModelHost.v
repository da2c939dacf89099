(** Configuration accesses by the host: core/rc.py and the delivery of the requests to a function. *)
From Verif Require Import Base ModelUtils ModelTlp ModelRegion ModelAttrs ModelCaps ModelCapList ModelConfig ModelFunction.

(** [op s req] is [perform_nonposted_operation]: the completions it returns, and the state of the rest of the
    system.  Loops count the remaining length down instead of a position up. *)

(** core/rc.py:582-598: the data of one read.  [crs]: the attribute [ingress_port.pcie_cap.crs_software_visibility_enable]
    of the completion, [None] without an ingress port. *)
Definition config_read_data (crs : option bool) (req : tlp) (cpls : list tlp) : res (list Z) :=
  match cpls with
  | [] => Ok [0xff; 0xff; 0xff; 0xff]
  | c :: _ =>
    let ff := Ok [0xff; 0xff; 0xff; 0xff] in
    if (status c =? CRS) && (address req =? 0) && (match crs with Some _ => true | None => false end) then
      if match crs with Some b => b | None => false end then Ok [1; 0; 0xff; 0xff] else ff
    else if negb (status c =? SC) then ff
    else _ <- py_assert (tlen c =? 1) ;; Ok (data c)
  end.
(** core/rc.py:565-606 *)
Fixpoint config_read_loop {S} (fuel : nat) (op : S -> tlp -> res (S * list tlp)) (crs : option bool) (dev : pcie_id)
  (addr rem : Z) (acc : list Z) (s : S) : res (S * list Z) :=
  match fuel with
  | O => Ok (s, acc)
  | Datatypes.S fuel =>
    if 0 <? rem then
      let req := set_completer_id dev (set_requester_id id0 (set_fmt_type CFG_READ_1 tlp0)) in
      let first_pad := addr mod 4 in
      let bl := Z.min rem (4 - first_pad) in
      let req := snd (set_addr_be addr bl req) in
      '(s, cpls) <- op s req ;;
      d <- config_read_data crs req cpls ;;
      config_read_loop fuel op crs dev (addr + bl) (rem - bl) (acc ++ skipn (Z.to_nat first_pad) d) s
    else Ok (s, acc)
  end.
Definition config_read {S} op crs dev addr length (s : S) : res (S * list Z) :=
  '(s, d) <- config_read_loop (Z.to_nat length) op crs dev addr length [] s ;;
  Ok (s, firstn (Z.to_nat length) d).
(** core/rc.py:629-646 *)
Fixpoint config_write_loop {S} (fuel : nat) (op : S -> tlp -> res (S * list tlp)) (dev : pcie_id)
  (addr : Z) (d : list Z) (s : S) : res S :=
  match fuel with
  | O => Ok s
  | Datatypes.S fuel =>
    if 0 <? zlen d then
      let req := set_completer_id dev (set_requester_id id0 (set_fmt_type CFG_WRITE_1 tlp0)) in
      let first_pad := addr mod 4 in
      let bl := Z.min (zlen d) (4 - first_pad) in
      let req := set_addr_be_data addr (slice 0 bl d) req in
      '(s, _) <- op s req ;;
      config_write_loop fuel op dev (addr + bl) (skipn (Z.to_nat bl) d) s
    else Ok s
  end.
Definition config_write {S} op dev addr d (s : S) : res S := config_write_loop (length d) op dev addr d s.

(** core/bridge.py:346-352: the bridge above the addressed bus makes the request a type 0 request. *)
Definition to_type0 (t : tlp) : res tlp :=
  ty <- fmt_type t ;;
  Ok (match ty with
      | CFG_READ_1 => set_fmt_type CFG_READ_0 t
      | CFG_WRITE_1 => set_fmt_type CFG_WRITE_0 t
      | _ => t
      end).
(** core/function.py:113-114 (the handlers that the constructor registers), the answer goes back to the host.  The tag was
    chosen by [perform_nonposted_operation]; [tg] stands for this choice.  The routing on the way is that of C29 and C30. *)
Definition cfg_deliver rd wr (tg : Z -> Z) (f : fnc) (t : tlp) : res (fnc * list tlp) :=
  t <- to_type0 (set_tag (tg (address t)) t) ;;
  ty <- fmt_type t ;;
  match ty with
  | CFG_READ_0 => '(f, c) <- handle_config_0_read rd t f ;; Ok (f, [c])
  | CFG_WRITE_0 => '(f, c) <- handle_config_0_write wr t f ;; Ok (f, [c])
  | _ => Err PyException
  end.
