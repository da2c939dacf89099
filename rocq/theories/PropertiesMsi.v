(** C28: message signalled interrupts. *)
From Verif Require Import Base ModelUtils ModelTlp ModelRegion ModelCompleter ModelAttrs ModelCaps ModelCapList ModelConfig ModelFunction ModelHost ModelPci ModelMsi
  SpecConfig SpecHost SpecMsi ProofsMsiSys ProofsMsiCount.

(** ** MSI-X: after any sequence of driver calls, every entry of the table of a function with MSI-X enabled is unmasked, and the
    message it holds sets its own event and no other. *)
Theorem C28_msix : forall dev f0 m x, (forall i, irq_function (dev i) (fst (f0 i)) (m i) (x i)) ->
  forall ops y i j k c, mrun dev ops (msys0 f0) = Ok y -> q_msix (y_irq y i) = true -> x i = Some j ->
  let a := c_attr (f_heap (fst (y_fn y i)) j) in let t := snd (y_fn y i) (table_bar a) in let e := table_start a + 16 * Z.of_nat k in
  Z.of_nat k < table_entries a -> mr_limit (y_region y) <= 2 ^ 32 -> rq_bus_master c = true -> 0 <= rq_mps c ->
  exists v, own_event y i k v /\ t (e + 12) = 0 /\
    send_message c (y_region y) (issue_msix a (t e + 2 ^ 32 * t (e + 4)) (t (e + 8))) = Ok [v_obj v].
Proof. exact msix_fires. Qed.

(** ** MSI: the same for every message number, if all MSI-X tables have a multiple of 32 entries, and the message numbers
    fit the data register.  Missing: other table sizes, for which it is false (see below). *)
Theorem C28_msi_partial : forall dev f0 m x, (forall i, irq_function (dev i) (fst (f0 i)) (m i) (x i)) ->
  forall ops y i j k c, mrun dev ops (msys0 f0) = Ok y -> (forall i, size32 (x i) (fst (f0 i))) -> q_msi (y_irq y i) = true -> m i = Some j ->
  let a := c_attr (f_heap (fst (y_fn y i)) j) in
  0 <= k < 2 ^ a ms_msi_multiple_message_capable ->
  mr_limit (y_region y) <= (if zbool (a ms_msi_extended_message_data_capable) then 2 ^ 32 else 2 ^ 16) -> rq_bus_master c = true -> 0 <= rq_mps c ->
  exists v, own_event y i (Z.to_nat k) v /\ send_message c (y_region y) (issue_msi a k) = Ok [v_obj v].
Proof. exact msi_fires. Qed.

(** ** A driver that asks for [mn] to [mx] vectors gets as many as the MSI-X table has, at most [mx], and MSI-X is on; if there are
    not [mn] of them, the same with MSI; otherwise it is told -1, and nothing is on. *)
Theorem C28_count : forall dev f0 m x, (forall i, irq_function (dev i) (fst (f0 i)) (m i) (x i)) ->
  forall ops y i mn mx q r s n, mrun dev ops (msys0 f0) = Ok y -> q_msi (y_irq y i) = false -> q_msix (y_irq y i) = false -> 1 <= mn <= mx ->
  alloc_irq_vectors (d_cr (dev i)) (d_cw (dev i)) (d_co (dev i)) d_bw d_br mn mx (y_irq y i) (y_region y) (y_fn y i) = Ok (q, r, s, n) ->
  match msix_offer mn mx (x i) (fst (y_fn y i)), msi_offer mn mx (m i) (fst (y_fn y i)) with
  | Some k, _ => n = k /\ q_msix q = true /\ q_msi q = false
  | None, Some k => n = k /\ q_msix q = false /\ q_msi q = true
  | None, None => n = -1 /\ q_msix q = false /\ q_msi q = false
  end.
Proof. exact count_ok. Qed.

(** ** Only a write of four bytes at the address of the region sets an event, that of the vector with these bytes. *)
Theorem C28_events : forall r t ns n, rc_msi_write r t = Ok ns -> In n ns ->
  (msi_base <= address t /\ address t + tlen t * 4 <= msi_base + msi_size) /\
  exists s e v, In (s, e) (write_runs t) /\ address t + s = msi_base /\ zlen (slice s e (data t)) = 4 /\
    In v (mr_vectors r) /\ v_data v = from_le (slice s e (data t)) /\ n = v_obj v.
Proof. exact events_ok. Qed.

(** ** Functions for the examples: MSI with 32 messages at 0x40, MSI-X with [n] entries at offset 0x1000 of BAR 2 at 0x58. *)
Definition fn_ex (n : Z) : fstate :=
  (mkFn (fun _ => 0) (fun i => match i with
     | O => mkCap KMsi 5 0 6 (Some 0x10) 0x58 (aset ms_msi_multiple_message_capable 5 (aset ms_msi_64bit_address_capable 1 msc_init))
     | _ => mkCap KMsix 0x11 0 3 (Some 0x16) 0 (aset mx_msix_table_size (n - 1) (aset mx_msix_table_bar_indicator_register 2 (aset mx_msix_table_offset 0x1000 mxc_init)))
     end) [O; 1%nat] [] (mkId 0 0 0), fun _ _ => 0).
(** Function 0 uses MSI-X, the others use MSI. *)
Definition dev_ex (i : nat) : mdev := mkDev ep_read ep_write (fun _ => 3) None (mkId 1 0 0)
  (fun id => match i with O => if id =? MSIX_ID then 0x58 else 0 | _ => if id =? MSI_ID then 0x40 else 0 end).
Definition m_ex (i : nat) : option nat := match i with O => None | _ => Some O end.
Definition x_ex (i : nat) : option nat := match i with O => Some 1%nat | _ => None end.
Lemma fn_ex_ok n i : irq_function (dev_ex i) (fst (fn_ex n)) (m_ex i) (x_ex i).
Proof.
  split; [eexists; right; left; reflexivity|]. split; [reflexivity|]. split; [reflexivity|].
  assert (R4 : forall r, 0 <= r < 4 -> owner (fst (fn_ex n)) (0x10 + r) = Some O).
  { intros r H. assert (C : In r [0; 1; 2; 3]) by (cbn; lia). repeat (destruct C as [<-|C]; [reflexivity|]). destruct C. }
  assert (R3 : forall r, 0 <= r < 3 -> owner (fst (fn_ex n)) (0x16 + r) = Some 1%nat).
  { intros r H. assert (C : In r [0; 1; 2]) by (cbn; lia). repeat (destruct C as [<-|C]; [reflexivity|]). destruct C. }
  destruct i; (split; [|]); cbn [m_ex x_ex]; try reflexivity.
  - split; [reflexivity|]. split; [vm_compute; discriminate|]. split; [reflexivity|exact R3].
  - split; [split; [reflexivity|]; split; [vm_compute; discriminate|]; split; [reflexivity|exact R4]|]. split; vm_compute; split; congruence.
Qed.
Definition cfg_ex : req_cfg := mkReqCfg true (mkId 1 0 0) 2 0 0 0.
Definition ops_ex : list mop := [MInit 0%nat; MInit 1%nat; MInit 2%nat; MAlloc 0%nat 1 32; MAlloc 1%nat 1 32; MFree 1%nat; MAlloc 2%nat 1 4; MAlloc 1%nat 1 8].
Definition sys_ex (n : Z) (ops : list mop) : msys := match mrun dev_ex ops (msys0 (fun _ => fn_ex n)) with Ok y => y | Err _ => msys0 (fun _ => fn_ex n) end.
Definition fire_msi (y : msys) (i : nat) (k : Z) : res (list nat) :=
  send_message cfg_ex (y_region y) (issue_msi (c_attr (f_heap (fst (y_fn y i)) O)) k).

Example C28_ex : let y := sys_ex 64 ops_ex in
  mrun dev_ex ops_ex (msys0 (fun _ => fn_ex 64)) = Ok y /\ size32 (x_ex 0%nat) (fst (fn_ex 64)) /\
  q_msix (y_irq y 0%nat) = true /\ q_msi (y_irq y 1%nat) = true /\ q_msi (y_irq y 2%nat) = true /\ mr_limit (y_region y) = 128 /\
  map v_data (firstn 3 (q_vectors (y_irq y 1%nat))) = [64; 65; 66] /\
  fire_msi y 1%nat 0 = Ok [64%nat] /\ fire_msi y 1%nat 31 = Ok [95%nat] /\ fire_msi y 2%nat 0 = Ok [96%nat] /\ fire_msi y 2%nat 5 = Ok [101%nat] /\
  (let t := snd (y_fn y 0%nat) 2 in t (0x1000 + 16 * 7) = 0x80000000 /\ t (0x1000 + 16 * 7 + 8) = 7).
Proof.
  split; [unfold sys_ex; vm_compute; reflexivity|]. vm_compute. repeat split.
Qed.

Example C28_count_ex : let y := sys_ex 64 [MInit 0%nat; MInit 1%nat] in
  q_msi (y_irq y 0%nat) = false /\ q_msix (y_irq y 0%nat) = false /\ msix_offer 1 100 (x_ex 0%nat) (fst (y_fn y 0%nat)) = Some 64 /\
  msix_offer 1 8 (x_ex 0%nat) (fst (y_fn y 0%nat)) = Some 8 /\ msix_offer 65 100 (x_ex 0%nat) (fst (y_fn y 0%nat)) = None /\
  msi_offer 1 100 (m_ex 1%nat) (fst (y_fn y 1%nat)) = Some 32 /\
  match alloc_irq_vectors (d_cr (dev_ex 1%nat)) (d_cw (dev_ex 1%nat)) (d_co (dev_ex 1%nat)) d_bw d_br 1 8 (y_irq y 1%nat) (y_region y) (y_fn y 1%nat) with
  | Ok (_, _, _, n) => n = 8 | Err _ => False end.
Proof. vm_compute. repeat split. Qed.

Example C28_events_ex : let r := mkMsi 2 [mkVec msi_base 1 7%nat; mkVec msi_base 0 6%nat] in
  let t a := set_addr_be_data a [1; 0; 0; 0] (new_mem_req cfg_ex a MEM_WRITE MEM_WRITE_64) in
  rc_msi_write r (t msi_base) = Ok [7%nat] /\ rc_msi_write r (t (msi_base - 4)) = Ok [] /\ rc_msi_write r (t (msi_base + 4)) = Err AssertError.
Proof. vm_compute. repeat split. Qed.

(** ** A table of 3 entries moves the limit to 6, not to a multiple of 32: message 0 of the next function sets event 0 of the
    first function. *)
Theorem C28_msi_refuted : exists dev f0 m x, (forall i, irq_function (dev i) (fst (f0 i)) (m i) (x i)) /\
  exists ops y i j, mrun dev ops (msys0 f0) = Ok y /\ q_msi (y_irq y i) = true /\ m i = Some j /\
  exists v i' w, i' <> i /\ nth_error (q_vectors (y_irq y i)) 0%nat = Some v /\ In w (q_vectors (y_irq y i')) /\ v_obj w <> v_obj v /\
    send_message cfg_ex (y_region y) (issue_msi (c_attr (f_heap (fst (y_fn y i)) j)) 0) = Ok [v_obj w].
Proof.
  exists dev_ex, (fun _ => fn_ex 3), m_ex, x_ex. split; [intros; apply fn_ex_ok|].
  exists [MInit 0%nat; MInit 1%nat; MAlloc 0%nat 1 3; MAlloc 1%nat 1 32]. eexists. exists 1%nat, O.
  split; [vm_compute; reflexivity|]. split; [reflexivity|]. split; [reflexivity|].
  exists (mkVec 0x80000000 6 3), O, (mkVec 0x80000000 0 0). split; [discriminate|]. split; [reflexivity|]. split; [left; reflexivity|]. split; [discriminate|].
  vm_compute. reflexivity.
Qed.

Print Assumptions C28_msix.
Print Assumptions C28_msi_partial.
Print Assumptions C28_count.
Print Assumptions C28_events.
Print Assumptions C28_msi_refuted.
