(** C70: the reset outputs of the device models. *)
From Verif Require Import Base ModelUtils ModelTlp ModelAttrs ModelCapList ModelConfig ModelFunction ModelRoute ModelFrames ModelUs ModelUsDev ModelReset SpecBar SpecRoute SpecUsRoute SpecReset ProofsReset.

(** The outputs change at clock edges only, and are released only while the input is high. *)
Theorem C70_clocked : forall i es e,
  (m_out (rrun (m_new i) es) = true -> m_out (rrun (m_new i) (es ++ [e])) = false -> e = Clk /\ fst (fold_left high_step es (i, 0)) = true) /\
  (m_out (rrun (m_new i) es) = false -> m_out (rrun (m_new i) (es ++ [e])) = true -> e = Clk).
Proof. intros i es e. split; [rewrite <- input_is; exact (release_at i es e) | exact (assert_at i es e)]. Qed.

(** From any point of any execution: while the input is low, from the second clock edge on, reset is asserted. *)
Theorem C70_low : forall i es0 es, m_in (rrun (m_new i) es0) = false -> ~ In Rise es -> 2 <= clocks es ->
  m_out (rrun (m_new i) (es0 ++ es)) = true.
Proof. exact low_all. Qed.

(** A fall of the input while reset is not asserted, however short, asserts it at one of the next two clock edges. *)
Theorem C70_falls : forall i es0 a b,
  m_out (rrun (m_new i) es0) = false -> m_in (rrun (m_new i) es0) = true -> clocks a = 0 -> clocks b = 0 ->
  m_out (rrun (m_new i) (es0 ++ Fall :: a ++ [Clk])) = true \/ m_out (rrun (m_new i) (es0 ++ Fall :: a ++ Clk :: b ++ [Clk])) = true.
Proof. exact falls. Qed.

(** From any point of any execution: if the input is high and stays so, then after two clock edges, 100 ns and one more edge reset is released, and stays released. *)
Theorem C70_released : forall i es0 es1 es2 es3, forwards es0 -> forwards es1 -> forwards es2 ->
  m_in (rrun (m_new i) es0) = true -> ~ In Fall es1 -> ~ In Fall es2 -> ~ In Fall es3 -> 2 <= clocks es1 -> 100 <= time es2 ->
  m_out (rrun (m_new i) (es0 ++ es1 ++ es2 ++ Clk :: es3)) = false.
Proof. exact released_run. Qed.

(** Reset is released only after the input has been high for 100 ns, if there is a clock edge in each of its low pulses.
    Missing: low pulses without a clock edge, for which it is false. *)
Theorem C70_length_partial : forall i es e, forwards es -> long_pulses i es ->
  m_out (rrun (m_new i) es) = true -> m_out (rrun (m_new i) (es ++ [e])) = false -> 100 <= high_for i es.
Proof. exact reset_length. Qed.

(** A low pulse between two clock edges during the 100 ns ends the wait: the next edge releases reset, with the input high for 0 ns. *)
Theorem C70_length_refuted : exists i es e, forwards es /\
  m_out (rrun (m_new i) es) = true /\ m_out (rrun (m_new i) (es ++ [e])) = false /\ high_for i es = 0.
Proof.
  exists true, [Clk; Clk; Pass 1; Fall; Rise], Clk. split; [|repeat split].
  intros n H. cbn in H. repeat destruct H as [H|H]; try discriminate; try contradiction. injection H as <-. lia.
Qed.
(** It is not asserted during the first clock cycle, though the input is low. *)
Theorem C70_start_refuted : exists es, ~ In Rise es /\ clocks es = 1 /\ m_in (rrun (m_new false) es) = false /\ m_out (rrun (m_new false) es) = false.
Proof. exists [Pass 8; Clk]. repeat split. cbn. intuition discriminate. Qed.

(** Power up with the input low, a rise, 100 ns, release; a fall and a reset of the same length. *)
Definition up : list rev := [Clk; Pass 4; Clk; Pass 4; Rise; Pass 60; Clk; Pass 50].
Example C70_ex : forwards up /\ long_pulses false up /\ high_for false up = 110 /\
  m_out (rrun (m_new false) up) = true /\ m_out (rrun (m_new false) (up ++ [Clk])) = false /\
  m_in (rrun (m_new false) (up ++ [Clk])) = true /\ m_out (rrun (m_new false) (up ++ [Clk; Fall; Clk; Clk])) = true /\
  m_out (rrun (m_new false) (up ++ [Clk; Fall; Clk; Clk] ++ [Rise; Clk; Clk] ++ [Pass 100] ++ [Clk])) = false.
Proof.
  split; [|split; [discriminate|repeat split]].
  intros n H. unfold up in H. cbn in H. repeat destruct H as [H|H]; try discriminate; try contradiction; injection H as <-; lia.
Qed.

(** Configuration requests are answered with a retry status, without any effect, if and only if the reset input or [cfg_config_space_enable] was low at the last clock edge. *)
Theorem C70_config : forall co i k a v b t ty d, fmt_type t = Ok ty -> (ty = CFG_READ_0 \/ ty = CFG_WRITE_0) -> clocks (map fst b) = 0 ->
  let en := snd (ctrl_run i k (a ++ (Clk, v) :: b)) in
  (m_in (rrun (m_new i) (map fst a)) = false \/ v = Some false -> exists c, us_upstream_recv co en t d = Ok (d, VAnswer c) /\ is_answer CRS c t (mkId (d_bus d) 0 0)) /\
  (m_in (rrun (m_new i) (map fst a)) = true -> v <> Some false -> forall d' c, us_upstream_recv co en t d = Ok (d', VAnswer c) -> status c = UR).
Proof. exact crs_iff. Qed.
(** Before the first clock edge a device without that input takes them even in reset. *)
Theorem C70_config_refuted : exists es, m_in (fst (ctrl_run false false es)) = false /\ ~ In Rise (map fst es) /\ snd (ctrl_run false false es) = true.
Proof. exists [(Pass 8, None)]. repeat split. cbn. intuition discriminate. Qed.
Example C70_config_ex : let t := set_fmt_type CFG_READ_0 tlp0 in
  fmt_type t = Ok CFG_READ_0 /\ snd (ctrl_run true true [(Clk, Some true); (Fall, Some true)]) = true /\ snd (ctrl_run true true [(Clk, Some true); (Fall, Some true); (Clk, Some true)]) = false /\
  snd (ctrl_run true true [(Clk, Some true); (Fall, Some true); (Clk, Some true); (Rise, Some true); (Clk, Some true)]) = true.
Proof. repeat split. Qed.

Print Assumptions C70_clocked.
Print Assumptions C70_low.
Print Assumptions C70_falls.
Print Assumptions C70_released.
Print Assumptions C70_length_partial.
Print Assumptions C70_length_refuted.
Print Assumptions C70_start_refuted.
Print Assumptions C70_config.
Print Assumptions C70_config_refuted.
