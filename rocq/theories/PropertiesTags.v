(** Tags (C19) and late completions (C20). *)
From Verif Require Import Base ModelUtils ModelTlp ModelRegion ModelTags SpecTags ProofsTags.

Definition ex_rd : tlp := snd (set_addr_be 0x1000 8 (set_fmt_type MEM_READ tlp0)).
(** A successful completion with [n] dwords of [bc] remaining bytes. *)
Definition ex_cpl (t n bc : Z) : tlp :=
  set_tag t (set_byte_count bc (set_tlen n (set_fmt_type CPL_DATA tlp0))).
(** Two reads at once; the first is answered by two completions. *)
Definition ex_ev : list tevent := [TCall 0 ex_rd; TSent 0; TCall 1 ex_rd; TSent 1;
  TCpl 0 (ex_cpl 1 1 8); TCpl 1 (ex_cpl 2 2 8); TTake 0; TCpl 0 (ex_cpl 1 1 4); TTake 1; TTake 0].
Definition ex_at (n : nat) : option (list (option Z) * list (list nat)) :=
  match trun (firstn n ex_ev) (tags_new false) with
  | Ok s => Some (map (fun i => tag_of (t_op s i)) [0; 1]%nat, map (fun i => map fst (got (t_op s i))) [0; 1]%nat)
  | Err _ => None
  end.

(** ** C19 *)
Theorem C19_unique : forall rc s i j t, treach rc s ->
  tag_of (t_op s i) = Some t -> tag_of (t_op s j) = Some t -> i = j.
Proof. exact tags_unique. Qed.
(** The tag is in range and the one in the request. *)
Theorem C19_range : forall rc s i t, treach rc s -> tag_of (t_op s i) = Some t ->
  0 <= t < 256 /\ forall r, request_of (t_op s i) = Some r -> tag r = t.
Proof. exact tag_range. Qed.
(** A call gets a tag below the limit at that time that belongs to nobody, and waits only if there is
    none.  The limit is the number of tags of the requester, at most 256, and at most 32 for a function
    without extended tags. *)
Theorem C19_call : forall rc s i r s', treach rc s -> t_op s i = OIdle -> tstep (TCall i r) s = Ok s' ->
  let limit := Z.min (if t_rc s || t_ext s then 256 else 32) (t_count s) in
  (exists t, t_op s' i = OSend (set_tag t r) t /\ 0 <= t < limit /\ forall j, tag_of (t_op s j) <> Some t) \/
  (t_op s' i = OAlloc r limit /\ forall t, 0 <= t < limit -> exists j, tag_of (t_op s j) = Some t).
Proof. exact call_tag. Qed.
Theorem C19_wake : forall rc s i r l s', treach rc s -> t_op s i = OAlloc r l -> tstep (TWake i) s = Ok s' ->
  (exists t, t_op s' i = OSend (set_tag t r) t /\ 0 <= t < l /\ forall j, tag_of (t_op s j) <> Some t) \/
  (t_op s' i = OAlloc r l /\ forall t, 0 <= t < l -> exists j, tag_of (t_op s j) = Some t).
Proof. exact wake_tag. Qed.
(** The assertion in [release_tag] never fails. *)
Theorem C19_no_error : forall rc es, along cpl_tags es (tags_new rc) -> exists s, trun es (tags_new rc) = Ok s.
Proof. intros rc es H. destruct (trun_inv es _ (tags_new_inv rc) H) as (s & E & _). eauto. Qed.
(** Every completion is delivered at most once, in order of arrival, to an operation that uses its tag. *)
Theorem C19_delivery : forall rc s, treach rc s ->
  (forall t, arrived t (t_hist s) = delivered t (t_hist s) ++ t_queue s t) /\
  (forall i, got (t_op s i) = delivered_to i (t_hist s)) /\
  (forall i t, used_tag (t_op s i) = Some t -> Forall (fun x => tag (snd x) = t) (delivered_to i (t_hist s))).
Proof. exact delivery. Qed.
Example C19_ex : ex_at 4 = Some ([Some 1; Some 2], [[]; []]) /\ ex_at 7 = Some ([Some 1; Some 2], [[0%nat]; []]) /\
  ex_at 10 = Some ([None; None], [[0%nat; 0%nat]; [1%nat]]).
Proof. vm_compute. auto. Qed.
(** With one tag the second call waits for the first. *)
Example C19_wait_ex : match trun [TConfig false 1; TCall 0 ex_rd; TCall 1 ex_rd] (tags_new true) with
  | Ok s => match t_op s 0%nat, t_op s 1%nat with OSend _ t, OAlloc _ l => t = 0 /\ l = 1 | _, _ => False end
  | Err _ => False
  end.
Proof. vm_compute. auto. Qed.

(** If [send] raises, the tag is never released. *)
Theorem C19_failed_keeps_tag : forall rc s i r t es s', treach rc s -> t_op s i = OFailed r t ->
  trun es s = Ok s' -> tag_of (t_op s' i) = Some t /\ t_active s' t = true.
Proof.
  intros rc s i r t es s' [e0 R] E H. pose proof (failed_stays es i r t s s' E H) as F.
  assert (T : tag_of (t_op s' i) = Some t) by (rewrite F; reflexivity). split; [exact T|].
  assert (R' : treach rc s') by (exists (e0 ++ es); rewrite trun_app, R; exact H).
  apply (i_act s' (treach_inv rc s' R') i t T).
Qed.
Example C19_failed_ex : match trun [TCall 0 ex_rd; TFail 0] (tags_new true) with
  | Ok s => t_op s 0%nat = OFailed (set_tag 1 ex_rd) 1 | Err _ => False end.
Proof. vm_compute. reflexivity. Qed.

(** ** C20 *)
(** A completion that arrives after the timeout of its operation is given to the next operation with
    the same tag. *)
Theorem C20_refuted : exists rc s c r l, treach rc s /\ t_op s 1%nat = ODone r 0 l /\
  l = [(0%nat, c)] /\ answers 1 (t_hist s) = [] /\ answers 0 (t_hist s) = [c].
Proof.
  destruct (trun [TConfig false 1; TCall 0 ex_rd; TSent 0; TTimeout 0; TCall 1 ex_rd; TSent 1;
                  TCpl 0 (ex_cpl 0 2 8); TTake 1] (tags_new true)) as [s|] eqn:E; [|vm_compute in E; discriminate].
  exists true, s, (ex_cpl 0 2 8), (set_tag 0 ex_rd), [(0%nat, ex_cpl 0 2 8)]. split; [eexists; exact E|].
  vm_compute in E. injection E as <-. vm_compute. auto.
Qed.
(** Missing for the full claim: executions in which a completion arrives after the timeout of its
    operation (false, see [C20_refuted]).  In all others, with timeouts, an operation gets only
    completions that were sent in answer to it, and returns all of them. *)
Theorem C20_own_partial : forall rc es s i, along in_time es (tags_new rc) -> trun es (tags_new rc) = Ok s ->
  Forall (fun x => fst x = i) (got (t_op s i)) /\
  (exists rest, answers i (t_hist s) = map snd (got (t_op s i)) ++ rest) /\
  forall r t acc, t_op s i = ODone r t acc ->
    map snd acc = answers i (t_hist s) /\ nonposted r (answers i (t_hist s)) = map snd acc.
Proof. exact own_completions. Qed.
(** Without timeouts: whatever else would arrive, the result is complete. *)
Theorem C20_no_timeout_partial : forall rc es s i, along patient es (tags_new rc) -> trun es (tags_new rc) = Ok s ->
  Forall (fun x => fst x = i) (got (t_op s i)) /\
  forall r t acc, t_op s i = ODone r t acc -> map snd acc = answers i (t_hist s) /\
    forall rest, nonposted r (answers i (t_hist s) ++ rest) = map snd acc.
Proof. exact patient_completions. Qed.
Example C20_ex : along in_time ex_ev (tags_new false) /\ along patient ex_ev (tags_new false) /\
  match trun ex_ev (tags_new false) with
  | Ok s => got (t_op s 0%nat) = [(0%nat, ex_cpl 1 1 8); (0%nat, ex_cpl 1 1 4)] | Err _ => False end.
Proof.
  split; [|split; [|vm_compute; reflexivity]].
  - vm_compute. repeat match goal with |- _ /\ _ => split | |- True => exact I
      | |- exists _, _ => eexists | |- _ \/ _ => right; eexists; reflexivity | |- Forall _ _ => repeat constructor end.
  - vm_compute. repeat match goal with |- _ /\ _ => split | |- True => exact I
      | |- exists _, _ => eexists | |- Forall _ _ => repeat constructor | |- Some _ = _ => reflexivity | |- forall _, _ => discriminate end.
Qed.

Print Assumptions C19_unique.
Print Assumptions C19_range.
Print Assumptions C19_call.
Print Assumptions C19_wake.
Print Assumptions C19_no_error.
Print Assumptions C19_delivery.
Print Assumptions C19_failed_keeps_tag.
Print Assumptions C20_refuted.
Print Assumptions C20_own_partial.
Print Assumptions C20_no_timeout_partial.
