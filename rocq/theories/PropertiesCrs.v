(** C69: functions that answer with CRS as they are not ready. *)
From Verif Require Import Base ModelUtils ModelTlp ModelHost ModelPci ModelCrs SpecCrs ProofsCrs.

Section Crs.
Context {S : Type} (op : S -> tlp -> res (S * list tlp)) (wait : Z -> S -> S) (now : S -> Z) (dev : pcie_id) (r acc v : Z).
(** [wait_crs] ends.  If it says that the function is ready, it is, and at most twice the time needed was spent, but for 10 us and the requests; if it gives up, the function needs more than 10.23 ms. *)
Theorem C69_wait : forall s, slow op wait now dev r acc v -> v <> 0xffff0001 ->
  exists s' b, wait_crs op (Some true) wait dev s = Ok (s', b) /\ (b = true -> r <= now s' /\ (now s < r -> now s' <= now s + 2 * (r - now s) + 10 + 10 * acc)) /\ (b = false -> now s + 10230 < r).
Proof. intros s Sl V. exact (waits_all op (Some true) wait now dev r acc v Sl s eq_refl V). Qed.
(** So the scan finds every device that is ready within this time, if the port makes CRS visible. *)
Theorem C69_probe : forall s, slow op wait now dev r acc v -> v <> 0 -> v <> 0xffffffff -> v <> 0xffff0000 -> v <> 0x0000ffff -> v <> 0xffff0001 ->
  exists s' b, probe op (Some true) wait dev s = Ok (s', b) /\ (b = true -> r <= now s' /\ now s' <= now s + 2 * Z.max 0 (r - now s) + 10 + 11 * acc) /\ (b = false -> now s + 10230 < r).
Proof. intros s Sl V1 V2 V3 V4 V5. exact (probes op (Some true) wait now dev r acc v Sl s eq_refl V1 V2 V3 V4 V5). Qed.
(** If it does not, a device that is not ready is taken for absent at once: the host does not repeat the request. *)
Theorem C69_invisible : forall s crs, slow op wait now dev r acc v -> crs <> Some true -> now s < r -> exists s', probe op crs wait dev s = Ok (s', false).
Proof. intros s crs Sl K L. exact (invisible op crs wait now dev r acc v Sl s K L). Qed.
End Crs.

(** A function that is ready at 700 us, with vendor 0x1234 and device 0xabcd; a request takes 1 us. *)
Definition sl_id : pcie_id := mkId 1 0 1.
Definition sl_op (s : Z) (t : tlp) : res (Z * list tlp) :=
  Ok (s + 1, [if s <? 700 then create_crs_completion t sl_id else set_data [0x34; 0x12; 0xcd; 0xab] (set_tlen 1 (create_completion_data t sl_id))]).
Definition sl_wait_ (n s : Z) : Z := s + n.
Lemma sl_slow : slow sl_op sl_wait_ (fun s => s) sl_id 700 1 0xabcd1234.
Proof.
  split; [reflexivity|lia| |]; intros s t _ H; do 2 eexists; unfold sl_op.
  - replace (s <? 700) with true by lia. repeat split; lia.
  - replace (s <? 700) with false by lia. repeat split; lia.
Qed.
Example C69_ex : slow sl_op sl_wait_ (fun s => s) sl_id 700 1 0xabcd1234 /\ probe sl_op (Some true) sl_wait_ sl_id 0 = Ok (1278, true) /\ 
  probe sl_op (Some true) sl_wait_ sl_id (-9540) = Ok (701, true) /\ probe sl_op (Some true) sl_wait_ sl_id (-20000) = Ok (-9759, false).
Proof. split; [exact sl_slow|]. vm_compute. repeat split. Qed.
(** [scan] waits for function 0 only: a further function that is not ready is taken for one of vendor 1 with the device number 0xffff. *)
Theorem C69_function_refuted : exists S (op : S -> tlp -> res (S * list tlp)) wait now dev r v s s', slow op wait now dev r 1 v /\ now s < r < now s + 1000 /\ probe_fn op (Some true) dev s = Ok (s', Some (1, 0xffff)) /\ v = 0xabcd1234.
Proof. exists Z, sl_op, sl_wait_, (fun s => s), sl_id, 700, 0xabcd1234, 0, 1. split; [exact sl_slow|]. split; [lia|]. split; vm_compute; reflexivity. Qed.

(** Writes are not repeated either, and nobody learns that one was refused: [config_write] ends alike whatever is answered. *)
Theorem C69_write_blind : forall S (op op' : S -> tlp -> res (S * list tlp)) dev addr d s, same_effect op op' -> config_write op dev addr d s = config_write op' dev addr d s.
Proof. intros S op op' dev addr d s E. exact (write_blind op op' dev E addr d s). Qed.
(** So a write is lost without notice if it comes early: a function with a register, which is written and answers if it is ready at 700 us; a request takes 1 us. *)
Definition rg_op (s : Z * list Z) (t : tlp) : res ((Z * list Z) * list tlp) :=
  if fst s <? 700 then Ok ((fst s + 1, snd s), [create_crs_completion t sl_id]) else Ok ((fst s + 1, data t), [create_completion t sl_id false SC]).
Theorem C69_write_refuted : exists S (op : S -> tlp -> res (S * list tlp)) (reg : S -> list Z) dev addr d early late s1 s2,
  config_write op dev addr d early = Ok s1 /\ reg s1 = reg early /\ config_write op dev addr d late = Ok s2 /\ reg s2 = d /\ reg early <> d.
Proof. exists (Z * list Z)%type, rg_op, snd, sl_id, 16, [1; 2; 3; 4], (0, [0; 0; 0; 0]), (800, [0; 0; 0; 0]), (1, [0; 0; 0; 0]), (801, [1; 2; 3; 4]). repeat split; try (vm_compute; reflexivity). discriminate. Qed.
(** ... which is the same, but for its answers, as a function that answers every request with success. *)
Example C69_write_ex : same_effect rg_op (fun s t => match rg_op s t with Ok (s', _) => Ok (s', [create_completion t sl_id false SC]) | Err e => Err e end).
Proof. intros s t. unfold rg_op. destruct (fst s <? 700); do 3 eexists; split; reflexivity. Qed.

Print Assumptions C69_wait.
Print Assumptions C69_probe.
Print Assumptions C69_invisible.
Print Assumptions C69_function_refuted.
Print Assumptions C69_write_blind.
Print Assumptions C69_write_refuted.
