(** What the configuration interfaces of the UltraScale hard blocks show and do (PG156, PG213: Configuration Status, Flow Control and Management
    Interface), in terms of the configuration registers and of the flow control credits. *)
From Verif Require Import Base ModelUtils ModelTlp ModelAttrs ModelCapList ModelCaps ModelConfig ModelDllp ModelPort ModelTlCfg ModelUsCfg
  SpecRegs SpecPort SpecTlCfg.

(** ** Status *)
(** What the host reads: command register, device control, link control and status. *)
Definition command (f : cfn) : Z := reads0 (host_reads f InFn 1).
Definition device_control (f : cfn) : Z := reads0 (host_reads f InPe 2).
Definition link_register (f : cfn) : Z := reads0 (host_reads f InPe 4).
(** cfg_function_status, four bits for each function: I/O space, memory space and bus master enable, interrupt disable; the bit of the command register. *)
Definition status_bit (j : Z) : Z := if j =? 3 then 10 else j.
(** [exc]: the bits left out; [low_two]: those the code gets wrong, I/O and memory space enable *)
Definition low_two (j : Z) : bool := j <? 2.
Definition function_bits (exc : Z -> bool) (fs : list cfn) (v : Z) : Prop :=
  0 <= v < 2 ^ (4 * zlen fs) /\
  forall k f j, nth_error fs k = Some f -> 0 <= j < 4 -> exc j = false -> Z.testbit v (4 * Z.of_nat k + j) = Z.testbit (command f) (status_bit j).
Definition rcb_bits (fs : list cfn) (v : Z) : Prop :=
  0 <= v < 2 ^ zlen fs /\ forall k f, nth_error fs k = Some f -> Z.testbit v (Z.of_nat k) = Z.testbit (link_register f) 3.
(** The fields of the PCI Express capability hold what they can show. *)
Record pe_ok (s : attrs) : Prop := {
  po_mps : 0 <= s pe_max_payload_size < 8; po_mrrs : 0 <= s pe_max_read_request_size < 8;
  po_width : 0 <= s pe_negotiated_link_width < 64; po_speed : 0 <= s pe_current_link_speed < 16 }.
(** Width and speed of the link as encoded on the signals: UltraScale: the width, a bit for the generation; UltraScale+: the logarithm of the
    width, the generation counted from 0. *)
Definition shows_width (plus : bool) (lanes v : Z) : Prop := if plus then forall j, 0 <= j <= 4 -> lanes = 2 ^ j -> v = j else v = lanes.
Definition shows_speed (plus : bool) (gen v : Z) : Prop := if plus then 1 <= gen <= 4 -> v = gen - 1 else 1 <= gen <= 3 -> v = 2 ^ (gen - 1).
Record status_ok (plus reset : bool) (fs : list cfn) (exc : Z -> bool) (s : ustat) : Prop := {
  so_down : s_link_down s = if reset then 1 else 0;
  so_up : s_lnk_up s = if reset then 0 else 1;
  so_first : forall f, nth_error fs 0 = Some f ->
    shows_width plus (slice (link_register f) 20 6) (s_width s) /\ shows_speed plus (slice (link_register f) 16 4) (s_speed s) /\
    (slice (device_control f) 5 3 < (if plus then 4 else 8) -> s_mps s = slice (device_control f) 5 3) /\ s_mrrs s = slice (device_control f) 12 3;
  so_func : function_bits exc fs (s_func s);
  so_rcb : rcb_bits fs (s_rcb s) }.

(** ** Flow control *)
Definition fc_shown (k : bool) (ty : fc_type) (v : per3 (Z * Z)) : Z := if k then snd (get3 ty v) else fst (get3 ty v).
(** Width of the signals *)
Definition fc_bits (k : bool) : Z := if k then 12 else 8.
(** Credits of the TLPs received by side [s] that are not released. *)
Definition held (k : bool) (ty : fc_type) (s : bool) (l : list entry) : Z :=
  sum_credits k ty (received s l) - freed k ty (released s l) 0 (received s l).

(** ** Errors *)
Inductive eev := Report (e : Z) | EEdge.
Definition reports (l : list eev) : list Z := flat_map (fun e => match e with Report x => [x] | EEdge => [] end) l.
(** usp_model.py: what is shown after each edge, and the queue at the end *)
Fixpoint usp_errs (l : list eev) (q : list Z) : list (Z * Z) * list Z :=
  match l with
  | [] => ([], q)
  | Report e :: l => usp_errs l (q ++ [e])
  | EEdge :: l => let '(v, valid, q) := usp_err_edge q in let (o, q) := usp_errs l q in ((v, valid) :: o, q)
  end.
Definition valid_ones (o : list (Z * Z)) : list Z := flat_map (fun x => if snd x =? 1 then [fst x] else []) o.

(** ** Configuration management *)
Inductive mev := Edge (i : minp) | Other (g : list fnc -> list fnc).
(** The signals after each edge: done and the read data *)
Fixpoint mg_run (l : list mev) (s : mst) : list (bool * Z) * mst :=
  match l with
  | [] => ([], s)
  | Edge i :: l => let s := mg_edge i s in let (o, s') := mg_run l s in ((mg_done s, mg_rdata s) :: o, s')
  | Other g :: l => mg_run l (mg_other g s)
  end.
(** What happens at the interface: nothing, somebody else accesses the functions, or the user logic requests an access and waits until it is done; that
    takes four more edges, the signals only count at the first one; meanwhile others may access the functions. *)
Definition step4 := (list (list fnc -> list fnc) * minp)%type.
Inductive seg := SIdle (i : minp) | SOther (g : list fnc -> list fnc) | SAccess (i : minp) (a b c d : step4).
Definition requests (i : minp) : bool := mi_read i || mi_write i.
Definition seg_ok (x : seg) : Prop := match x with SIdle i => requests i = false | SOther _ => True | SAccess i _ _ _ _ => requests i = true end.
Definition others (gs : list (list fnc -> list fnc)) : list mev := map Other gs.
Definition step_events (a : step4) : list mev := others (fst a) ++ [Edge (snd a)].
Definition seg_events (x : seg) : list mev :=
  match x with
  | SIdle i => [Edge i]
  | SOther g => [Other g]
  | SAccess i a b c d => Edge i :: step_events a ++ step_events b ++ step_events c ++ step_events d
  end.
(** The effect on the functions: that of a configuration read or write by the host. *)
Definition apply_others (gs : list (list fnc -> list fnc)) (fns : list fnc) : list fnc := fold_left (fun x g => g x) gs fns.
Fixpoint write_nth (n : nat) (g : fnc -> fnc) (l : list fnc) : list fnc :=
  match l, n with [], _ => [] | f :: l, O => g f :: l | f :: l, S n => f :: write_nth n g l end.
Definition access_fns (i : minp) (fns : list fnc) : list fnc :=
  if mi_int i || mi_read i then fns else write_nth (mi_fn i) (ep_write (mi_reg i) (mi_data i) (mi_be i)) fns.
(** The value a read gives; [None]: the access cannot be done. *)
Definition access_value (i : minp) (fns : list fnc) (old : Z) : option Z :=
  if mi_int i then Some old
  else match nth_error fns (mi_fn i) with
       | None => None
       | Some f => if mi_read i then match ep_read f (mi_reg i) with Ok o => o | Err _ => None end else Some old
       end.
(** Functions and read data after the segments, and what the signals show. *)
Fixpoint segs_do (l : list seg) (fns : list fnc) (rd : Z) : option (list (bool * Z) * list fnc * Z) :=
  match l with
  | [] => Some ([], fns, rd)
  | SIdle _ :: l => match segs_do l fns rd with Some (o, f, v) => Some ((false, rd) :: o, f, v) | None => None end
  | SOther g :: l => segs_do l (g fns) rd
  | SAccess i a b c d :: l =>
    let at_access := apply_others (fst c) (apply_others (fst b) (apply_others (fst a) fns)) in
    match access_value i at_access rd with
    | None => None
    | Some rd' =>
      match segs_do l (apply_others (fst d) (access_fns i at_access)) rd' with
      | Some (o, f, v) => Some ((false, rd) :: (false, rd) :: (false, rd) :: (true, rd') :: (false, rd') :: o, f, v)
      | None => None
      end
    end
  end.
Definition edges (l : list mev) : nat := length (filter (fun e => match e with Edge _ => true | Other _ => false end) l).
