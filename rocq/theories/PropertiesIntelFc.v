(** C68: the transmit flow control outputs of the Intel device models. *)
From Verif Require Import Base ModelTlp SpecTlp ModelDllp ModelPort SpecPort ModelIntelFc SpecIntelFc ProofsPort ProofsIntelFc PropertiesUsCfg.

(** ** Stratix 10 *)
(** Credits that were shown in [st] and have not been used until [st'] are free in the buffers of the peer, however much later this is. *)
Theorem C68_s10_safe : forall ia ib st s lt k ty x es st', reach ia ib st -> c_fi2 (p_ch (s_port st s)) = true -> s10_shown k ty (s10_fc lt (p_ch (s_port st s))) = Some x -> run es st = Ok st' ->
  advertised ia ib k ty (negb s) = 0 \/ x - (sent k ty s st' - sent k ty s st) <= advertised ia ib k ty (negb s) - in_use k ty s (s_log st').
Proof. exact s10_safe. Qed.
(** A TLP for which they suffice is sent at once. *)
Theorem C68_s10_go : forall ia ib st0 s lt t ty es st, reach ia ib st0 -> c_fi2 (p_ch (s_port st0 s)) = true -> run es st0 = Ok st -> get_fc_type t = Ok ty ->
  (forall k, exists x, s10_shown k ty (s10_fc lt (p_ch (s_port st0 s))) = Some x /\ credits k ty t <= x - (sent k ty s st - sent k ty s st0)) ->
  exists st', step (EGate s t) st = Ok st' /\ gated s (s_log st') = gated s (s_log st) ++ [t].
Proof. exact s10_go. Qed.
(** Full statement: what is shown are the credits left.  Proved modulo the width of the signals; an H-tile does not show data credits of non-posted requests and completions. *)
Theorem C68_s10_exact_partial : forall lt c k ty x, s10_shown k ty (s10_fc lt c) = Some x -> x = tx_credits_available (fcof k ty c) mod 2 ^ (if k then 12 else 8).
Proof. exact s10_is. Qed.
(** 256 headers and 4097 data credits are left, and 0 and 1 are shown. *)
Theorem C68_s10_wrap_refuted : exists ia ib st, reach ia ib st /\ c_fi2 (p_ch (s_port st true)) = true /\
  advertised ia ib false FC_P false - in_use false FC_P true (s_log st) = 256 /\ advertised ia ib true FC_P false - in_use true FC_P true (s_log st) = 4097 /\
  s10_shown false FC_P (s10_fc true (p_ch (s_port st true))) = Some 0 /\ s10_shown true FC_P (s10_fc true (p_ch (s_port st true))) = Some 1.
Proof.
  destruct (a_run an_init) as [st|] eqn:E; [|vm_compute in E; discriminate]. exists adv_a, adv_b, st. split; [exact (a_reach _ _ E)|]. vm_compute in E. injection E as <-. vm_compute. repeat split.
Qed.

(** ** P-Tile *)
(** Every pool is shown once in six cycles. *)
Theorem C68_ptile_pools : forall n c k ty, exists j, (j < 6)%nat /\ snd (ptile_fc (n + j) c) = tdm k ty.
Proof. exact ptile_pools. Qed.
(** The limit less what has been sent, modulo the width of the counters, goes down only by what is sent, as long as no more is sent than is left; and as much is free at the peer. *)
Theorem C68_ptile_safe : forall ia ib st s n k ty es st', reach ia ib st -> c_fi2 (p_ch (s_port st s)) = true -> advertised ia ib k ty (negb s) <> 0 -> snd (ptile_fc n (p_ch (s_port st s))) = tdm k ty ->
  let v := fst (ptile_fc n (p_ch (s_port st s))) in run es st = Ok st' -> sent k ty s st' - sent k ty s st <= left_of v k ty s st ->
  left_of v k ty s st' = left_of v k ty s st - (sent k ty s st' - sent k ty s st) /\ 0 <= left_of v k ty s st' <= advertised ia ib k ty (negb s) - in_use k ty s (s_log st').
Proof. exact ptile_safe. Qed.
(** A TLP for which the limits seen last suffice, each at a time of its own, is sent at once; one for which a limit just seen does not suffice is held back. *)
Theorem C68_ptile_go : forall ia ib st s t ty, get_fc_type t = Ok ty ->
  (forall k, exists st0 es n, reach ia ib st0 /\ c_fi2 (p_ch (s_port st0 s)) = true /\ run es st0 = Ok st /\ snd (ptile_fc n (p_ch (s_port st0 s))) = tdm k ty /\
    let v := fst (ptile_fc n (p_ch (s_port st0 s))) in sent k ty s st - sent k ty s st0 <= left_of v k ty s st0 /\ credits k ty t <= left_of v k ty s st) ->
  exists st', step (EGate s t) st = Ok st' /\ gated s (s_log st') = gated s (s_log st) ++ [t].
Proof. exact ptile_go. Qed.
Theorem C68_ptile_blocked : forall ia ib st s n k ty t, reach ia ib st -> c_fi2 (p_ch (s_port st s)) = true -> advertised ia ib k ty (negb s) <> 0 -> snd (ptile_fc n (p_ch (s_port st s))) = tdm k ty ->
  get_fc_type t = Ok ty -> left_of (fst (ptile_fc n (p_ch (s_port st s)))) k ty s st < credits k ty t -> step (EGate s t) st = Ok st.
Proof. exact ptile_blocked. Qed.
(** Credits without limit are shown as a limit of 0, at any time; so a user logic that goes by the limit alone never sends. *)
Theorem C68_ptile_unlimited : forall ia ib st s n k ty, reach ia ib st -> c_fi2 (p_ch (s_port st s)) = true -> advertised ia ib k ty (negb s) = 0 -> snd (ptile_fc n (p_ch (s_port st s))) = tdm k ty ->
  fst (ptile_fc n (p_ch (s_port st s))) = 0.
Proof. intros ia ib st s n k ty R F N E. rewrite (ptile_is _ _ _ _ E), (proj1 (unlimited _ _ _ _ _ _ R F N)). destruct k; reflexivity. Qed.
Theorem C68_ptile_unlimited_refuted : exists ia ib st k ty n, reach ia ib st /\ c_fi2 (p_ch (s_port st true)) = true /\ advertised ia ib k ty false = 0 /\
  snd (ptile_fc n (p_ch (s_port st true))) = tdm k ty /\ left_of (fst (ptile_fc n (p_ch (s_port st true)))) k ty true st = 0.
Proof.
  destruct (a_run an_init) as [st|] eqn:E; [|vm_compute in E; discriminate]. exists adv_a, adv_b, st, false, FC_CPL, 2%nat. split; [exact (a_reach _ _ E)|]. vm_compute in E. injection E as <-. vm_compute. repeat split.
Qed.
(** The link of [C55_fc_ex]: seen after the initialisation, and used after a write has been sent *)
Example C68_ex : exists st st', reach adv_a adv_b st /\ c_fi2 (p_ch (s_port st false)) = true /\ run [EGate false a_write] st = Ok st' /\
  map (fun n => ptile_fc n (p_ch (s_port st false))) [0; 1; 2; 3; 4; 5; 6]%nat = [(2, 0); (1, 1); (0, 2); (300, 4); (1, 5); (0, 6); (2, 0)] /\
  s10_fc false (p_ch (s_port st false)) = mk3 (2, Some 300) (1, None) (255, None) /\
  sent true FC_P false st' - sent true FC_P false st = 2 /\ left_of 300 true FC_P false st' = 298 /\ left_of 2 false FC_P false st' = 1 /\ get_fc_type a_write = Ok FC_P /\ credits true FC_P a_write = 2 /\ credits false FC_P a_write = 1.
Proof.
  destruct (a_run an_init) as [st|] eqn:E; [|vm_compute in E; discriminate]. destruct (run [EGate false a_write] st) as [st'|] eqn:E'; [|vm_compute in E; injection E as <-; vm_compute in E'; discriminate E'].
  exists st, st'. split; [exact (a_reach _ _ E)|]. vm_compute in E. injection E as <-. vm_compute in E'. injection E' as <-. vm_compute. repeat split.
Qed.

Print Assumptions C68_s10_safe.
Print Assumptions C68_s10_go.
Print Assumptions C68_s10_exact_partial.
Print Assumptions C68_s10_wrap_refuted.
Print Assumptions C68_ptile_pools.
Print Assumptions C68_ptile_safe.
Print Assumptions C68_ptile_go.
Print Assumptions C68_ptile_blocked.
Print Assumptions C68_ptile_unlimited.
Print Assumptions C68_ptile_unlimited_refuted.
