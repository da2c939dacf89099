(** The reset outputs of the device models. *)
From Verif Require Import Base.

(** [_run_reset]: us_model.py:944-972, usp_model.py:1088-1115, s10_model.py:718-753, ptile_model.py:864-893.  All four wait for the same things in the same order; Stratix 10 and P-Tile drive more signals,
    all with the same value ([reset_status_n] with the opposite).  Not modelled: which of two edges at the same time comes first (events are in some order).  [RTimer n]: [n] ns are left of the timer.
    Without a reset input ([None]) the input counts as high and never falls; the coroutine ends where it would wait for that. *)
Inductive rst := RClk1 | RClk2 | RRise | RTimer (left : Z) | REdge | RRun.
(** [m_in]: the reset input, active low; [m_out]: the reset output, active high *)
Record machine := mkM { m_st : rst; m_in : bool; m_out : bool }.
(** A rising clock edge, edges of the input, and time without an edge; an edge to the value that the input has is none. *)
Inductive rev := Clk | Rise | Fall | Pass (n : Z).
Definition rstep (m : machine) (e : rev) : machine :=
  match e with
  | Clk =>
    match m_st m with
    | RClk1 => mkM RClk2 (m_in m) (m_out m)
    | RClk2 => mkM (if m_in m then RTimer 100 else RRise) (m_in m) true
    | REdge => if m_in m then mkM RRun (m_in m) false else mkM RClk1 (m_in m) (m_out m)
    | _ => m
    end
  | Rise =>
    if m_in m then m
    else mkM (match m_st m with RRise => RTimer 100 | st => st end) true (m_out m)
  | Fall =>
    if m_in m then mkM (match m_st m with RTimer _ => REdge | REdge => RClk1 | RRun => RClk1 | st => st end) false (m_out m)
    else m
  | Pass n =>
    match m_st m with
    | RTimer k => mkM (if k <=? n then REdge else RTimer (k - n)) (m_in m) (m_out m)
    | _ => m
    end
  end.
(** The outputs are 0 at first (us_model.py:397, usp_model.py:470, s10_model.py:313-316, ptile_model.py:393-394); so [reset_status_n], which is active low, is asserted at first, unlike the others. *)
Definition m_new (i : bool) : machine := mkM RClk1 i false.
Definition rrun (m : machine) (es : list rev) : machine := fold_left rstep es m.

(** [_run_cfg_ctrl_logic] (us_model.py:1394-1406, usp_model.py:1518-1530): [config_space_enable] at each clock edge.  Each event comes with the value of the input [cfg_config_space_enable],
    [None] if it is not connected.  Both models take the reset input's level only. *)
Definition ctrl_step (x : machine * bool) (ev : rev * option bool) : machine * bool :=
  let '(m, c) := x in let '(e, v) := ev in
  (rstep m e, match e with Clk => if negb (m_in m) then false else match v with Some b => b | None => true end | _ => c end).
(** At first: us_model.py:359, 720-721, usp_model.py:412, 864-865. *)
Definition ctrl_new (i : bool) (connected : bool) : machine * bool := (m_new i, negb connected).
Definition ctrl_run (i connected : bool) (es : list (rev * option bool)) : machine * bool := fold_left ctrl_step es (ctrl_new i connected).
