(** core/function.py: registration of capabilities, BARs, matching of TLPs, type 0 configuration
    requests, error bits of the status register. *)
From Verif Require Import Base ModelUtils ModelTlp ModelAttrs ModelCaps ModelCapList ModelConfig.

Definition with_caps (l : list nat) (f : fnc) : fnc := mkFn (f_attr f) (f_heap f) l (f_ecaps f) (f_id f).
Definition with_ecaps (l : list nat) (f : fnc) : fnc := mkFn (f_attr f) (f_heap f) (f_caps f) l (f_id f).

(** core/function.py:308-314; the attribute [parent] is not modelled. *)
Definition fn_register_capability (i : nat) (o : option Z) (f : fnc) : fnc :=
  let (h, l) := register (caps_start false) i o (f_heap f) (f_caps f) in
  let p := match l with j :: _ => off (h j) * 4 | [] => 0 end in
  with_attr (aset fn_capabilities_ptr p) (with_caps l (with_heap (fun _ => h) f)).
(** core/function.py:316-317 *)
Definition fn_deregister_capability (i : nat) (f : fnc) : fnc :=
  let (h, l) := deregister i (f_heap f) (f_caps f) in with_caps l (with_heap (fun _ => h) f).
(** core/function.py:325-327; an object of another class is looked up as a capability ID, which fails
    (caps/common.py:175-178). *)
Definition fn_register_extended_capability (i : nat) (o : option Z) (f : fnc) : res fnc :=
  if is_ext (c_kind (f_heap f i)) then
    let (h, l) := register (caps_start true) i o (f_heap f) (f_ecaps f) in
    Ok (with_ecaps l (with_heap (fun _ => h) f))
  else Err PyException.
(** core/function.py:329-330 *)
Definition fn_deregister_extended_capability (i : nat) (f : fnc) : fnc :=
  let (h, l) := deregister i (f_heap f) (f_ecaps f) in with_ecaps l (with_heap (fun _ => h) f).

(** [int.bit_length] *)
Definition bit_length (v : Z) : Z := if v =? 0 then 0 else Z.log2 (Z.abs v) + 1.
(** An index into a list of length [n]; negative ones count from the end. *)
Definition py_index (n i : Z) : res Z :=
  if (0 <=? i) && (i <? n) then Ok i
  else if (- n <=? i) && (i <? 0) then Ok (n + i)
  else Err IndexError.
(** core/function.py:332-351 for a function with [n] BARs; all attributes are integers. *)
Definition configure_bar (n idx size : Z) (ext prefetch io : bool) (s : attrs) : res attrs :=
  let mask := 2 ^ bit_length (size - 1) - 1 in
  if (n <=? idx) || (ext && (n <=? idx + 1)) then Err PyException
  else
    i <- py_index n idx ;;
    if io then
      Ok (aset (fn_bar_mask i) (Z.land 0xfffffffc (Z.lnot mask)) (aset (fn_bar i) 1 s))
    else
      let s := aset (fn_bar_mask i) (Z.land 0xfffffff0 (Z.lnot mask)) (aset (fn_bar i) 0 s) in
      s <- (if ext then
              let s := aset (fn_bar i) (Z.lor (s (fn_bar i)) 4) s in
              j <- py_index n (idx + 1) ;;
              Ok (aset (fn_bar_mask j) (Z.land 0xffffffff (Z.shiftr (Z.lnot mask) 32)) (aset (fn_bar j) 0 s))
            else Ok s) ;;
      Ok (if prefetch then aset (fn_bar i) (Z.lor (s (fn_bar i)) 8) s else s).

(** core/function.py:356-392; the recursion is over the BARs from [bar] on. *)
Fixpoint match_bar_loop (k : nat) (n bar addr : Z) (io : bool) (s : attrs) : res (option (Z * Z)) :=
  match k with
  | O => Ok None
  | S k =>
    if n <=? bar then Ok None
    else
      let bar_val := s (fn_bar bar) in
      let bar_mask := s (fn_bar_mask bar) in
      if bar_mask =? 0 then match_bar_loop k n (bar + 1) addr io s
      else if zbool (Z.land bar_val 1) then
        if io && (Z.land (Z.lxor addr bar_val) bar_mask =? 0)
        then Ok (Some (bar, Z.land addr (Z.lnot bar_mask)))
        else match_bar_loop k n (bar + 1) addr io s
      else if zbool (Z.land bar_val 4) then
        if n <=? bar + 1 then Err PyException
        else
          let bar_val := Z.lor bar_val (Z.shiftl (s (fn_bar (bar + 1))) 32) in
          let bar_mask := Z.lor bar_mask (Z.shiftl (s (fn_bar_mask (bar + 1))) 32) in
          if negb io && (Z.land (Z.lxor addr bar_val) bar_mask =? 0)
          then Ok (Some (bar, Z.land addr (Z.lnot bar_mask)))
          else match_bar_loop k n (bar + 2) addr io s
      else
        if negb io && (Z.land (Z.lxor addr bar_val) bar_mask =? 0)
        then Ok (Some (bar, Z.land addr (Z.lnot bar_mask)))
        else match_bar_loop k n (bar + 1) addr io s
  end.
Definition match_bar (n addr : Z) (io : bool) (s : attrs) : res (option (Z * Z)) :=
  match_bar_loop (Z.to_nat n) n 0 addr io s.

(** core/function.py:397-415 *)
Definition match_tlp (n : Z) (f : fnc) (t : tlp) : res bool :=
  ty <- fmt_type t ;;
  let hit x := match x with Some _ => true | None => false end in
  match ty with
  | CFG_READ_0 | CFG_WRITE_0 =>
    Ok ((device (f_id f) =? device (completer_id t)) && (func (f_id f) =? func (completer_id t)))
  | CFG_READ_1 | CFG_WRITE_1 => Ok false
  | CPL | CPL_DATA | CPL_LOCKED | CPL_LOCKED_DATA => Ok (id_eqb (f_id f) (requester_id t))
  | IO_READ | IO_WRITE => b <- match_bar n (address t) true (f_attr f) ;; Ok (hit b)
  | MEM_READ | MEM_READ_64 | MEM_WRITE | MEM_WRITE_64 => b <- match_bar n (address t) false (f_attr f) ;; Ok (hit b)
  | _ => Err PyException
  end.

(** core/tlp.py:469-470; [KeyError] cannot occur, every type has a class. *)
Definition is_completion (t : tlp) : res bool :=
  ty <- get_fc_type t ;; Ok (match ty with FC_CPL => true | _ => false end).
(** core/function.py:417-425: the TLP goes to the transmit handler. *)
Definition fn_upstream_send (t : tlp) (f : fnc) : res fnc :=
  ok <- tlp_check t ;;
  _ <- py_assert ok ;;
  Ok (if zbool (f_attr f fn_parity_error_response_enable) && ep t
      then with_attr (aset fn_master_data_parity_error 1) f else f).
(** core/function.py:427-431 *)
Definition fn_send (t : tlp) (f : fnc) : res fnc :=
  c <- is_completion t ;;
  fn_upstream_send t (if c && (status t =? CA) then with_attr (aset fn_signaled_target_abort 1) f else f).
(** core/function.py:433-445, up to the call of [handle_tlp]. *)
Definition fn_upstream_recv (t : tlp) (f : fnc) : res fnc :=
  ok <- tlp_check t ;;
  _ <- py_assert ok ;;
  c <- is_completion t ;;
  let f :=
    if c then
      if status t =? CA then with_attr (aset fn_received_target_abort 1) f
      else if status t =? UR then with_attr (aset fn_received_master_abort 1) f
      else f
    else f in
  Ok (if zbool (f_attr f fn_parity_error_response_enable) && ep t
      then with_attr (aset fn_master_data_parity_error 1) f else f).

(** core/function.py:550-553, 579-582: the request is for this function, whose bus number it captures. *)
Definition cfg_target (t : tlp) (f : fnc) : bool :=
  (device (completer_id t) =? device (f_id f)) && (func (completer_id t) =? func (f_id f)).
Definition capture (t : tlp) (f : fnc) : fnc :=
  with_id (mkId (bus (completer_id t)) (device (f_id f)) (func (f_id f))) f.
(** core/function.py:547-572; [rd] is [read_config_register] of the class. *)
Definition handle_config_0_read (rd : fnc -> Z -> res (option Z)) (t : tlp) (f : fnc) : res (fnc * tlp) :=
  if cfg_target t f then
    let f := capture t f in
    v <- rd f (Z.shiftr (address t) 2) ;;
    match v with
    | None => Err StructError
    | Some v =>
      d <- struct_pack_le 4 v ;;
      let cpl := set_byte_count 4 (tlp_set_data d (create_completion_data t (f_id f))) in
      f <- fn_upstream_send cpl f ;;
      Ok (f, cpl)
    end
  else
    let cpl := create_ur_completion t (f_id f) in
    f <- fn_upstream_send cpl f ;;
    Ok (f, cpl).
(** [struct.unpack('<L', b)] *)
Definition unpack_l (b : list Z) : res Z := if (length b =? 4)%nat then Ok (from_le b) else Err StructError.
(** core/function.py:574-600; [wr] is [write_config_register] of the class. *)
Definition handle_config_0_write (wr : Z -> Z -> Z -> fnc -> fnc) (t : tlp) (f : fnc) : res (fnc * tlp) :=
  if cfg_target t f then
    d <- unpack_l (data t) ;;
    let f := capture t f in
    let f := wr (Z.shiftr (address t) 2) d (first_be t) f in
    let cpl := create_completion t (f_id f) false SC in
    f <- fn_upstream_send cpl f ;;
    Ok (f, cpl)
  else
    let cpl := create_ur_completion t (f_id f) in
    f <- fn_upstream_send cpl f ;;
    Ok (f, cpl).
