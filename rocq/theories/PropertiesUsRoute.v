(** C48: routing of received TLPs in the UltraScale device models. *)
From Verif Require Import Base ModelUtils ModelTlp ModelAttrs ModelCapList ModelConfig ModelFunction ModelRoute ModelFrames ModelUs ModelUsDev
  SpecBar SpecRoute SpecUsRoute ProofsUsRoute.
From Coq Require Import Lia.

(** A memory or IO request goes to the user with the number of a BAR whose window contains the address, of the first function that has one;
    if there is none, writes to memory are discarded and other requests are answered as unsupported.
    Missing from the full statement: the aperture for functions other than the first ([C48_aperture_refuted]), and the function as completer
    ([C48_completer_refuted]); the windows are restricted as in C21. *)
Theorem C48_request_partial : forall co en t ty io d ls, fmt_type t = Ok ty -> route_of ty t = TAddr io (address t) ->
  Forall2 (fun p l => bars (fst p) (snd p) l (TAddr io (address t))) (d_fns d) ls ->
  exists act, us_upstream_recv co en t d = Ok (d, act) /\
  match act with
  | VReq u => exists j f n l k m base cid, nth_error (d_fns d) j = Some (f, n) /\ nth_error ls j = Some l /\
      In (bar_id u, k, m, base) (windows 0 l) /\ is_io k = io /\ base <= address t < base + 2 ^ m /\ unclaimed io (address t) (firstn j ls) /\
      (j = 0%nat -> bar_aperture u = m) /\ u_tlp u = set_completer_id cid (tlp_copy t) /\
      cid = (if Bool.eqb io (co_plus co) then mkId (d_bus d) (device (completer_id t)) (func (completer_id t)) else f_id f)
  | VDrop => (ty = MEM_WRITE \/ ty = MEM_WRITE_64) /\ unclaimed io (address t) ls
  | VAnswer c => ty <> MEM_WRITE /\ ty <> MEM_WRITE_64 /\ unclaimed io (address t) ls /\ is_answer UR c t (mkId (d_bus d) 0 0)
  | _ => False
  end.
Proof. exact us_request. Qed.
(** Configuration requests of type 0 set the bus number of all functions and go to the function they name. *)
Theorem C48_config : forall co t ty d, fmt_type t = Ok ty -> (ty = CFG_READ_0 \/ ty = CFG_WRITE_0) -> 0 <= bus (completer_id t) < 256 ->
  Forall (fun p => bus (f_id (fst p)) = d_bus d) (d_fns d) ->
  exists d' act, us_upstream_recv co true t d = Ok (d', act) /\ d_bus d' = bus (completer_id t) /\
  Forall2 (fun p p' => snd p' = snd p /\ fst p' = with_id (mkId (bus (completer_id t)) (device (f_id (fst p))) (func (f_id (fst p)))) (fst p)) (d_fns d) (d_fns d') /\
  match act with
  | VFn k => (exists p, nth_error (d_fns d) k = Some p /\ addressed_fn t p = true) /\ Forall (fun p => addressed_fn t p = false) (firstn k (d_fns d))
  | VAnswer c => Forall (fun p => addressed_fn t p = false) (d_fns d) /\ is_answer UR c t (mkId (bus (completer_id t)) 0 0)
  | _ => False
  end.
Proof. exact us_config. Qed.
(** Before [config_space_enable] they are answered with a retry status. *)
Theorem C48_disabled : forall co t ty d, fmt_type t = Ok ty -> (ty = CFG_READ_0 \/ ty = CFG_WRITE_0) ->
  exists c, us_upstream_recv co false t d = Ok (d, VAnswer c) /\ is_answer CRS c t (mkId (d_bus d) 0 0).
Proof. exact us_disabled. Qed.
Theorem C48_type1 : forall co en t ty d, fmt_type t = Ok ty -> (ty = CFG_READ_1 \/ ty = CFG_WRITE_1) ->
  exists c, us_upstream_recv co en t d = Ok (d, VAnswer c) /\ is_answer UR c t (mkId (d_bus d) 0 0).
Proof. exact us_type1. Qed.
(** Completions are taken exactly if one of the functions is the requester. *)
Theorem C48_completion : forall co en t ty d, fmt_type t = Ok ty -> (ty = CPL \/ ty = CPL_DATA \/ ty = CPL_LOCKED \/ ty = CPL_LOCKED_DATA) ->
  us_upstream_recv co en t d = Ok (d, if existsb (fun p => id_eqb (f_id (fst p)) (requester_id t)) (d_fns d) then VCpl else VDrop).
Proof. exact us_completion. Qed.

(** Two functions, with a window of 16 bytes at 0x1000 and one of 256 bytes at 0x2000. *)
Definition fn_with (i : pcie_id) (m base : Z) : fnc :=
  mkFn (aset (fn_bar 0) base (aset (fn_bar_mask 0) (2 ^ 32 - 2 ^ m) (fun _ => 0))) (fun _ => mkCap KMsi 5 0 6 None 0 (fun _ => 0)) [] [] i.
Definition two_fns : dev := mkDev 3 [(fn_with (mkId 3 0 0) 4 0x1000, 6); (fn_with (mkId 3 0 1) 8 0x2000, 6)].
Definition two_ls : list (list entry) :=
  [[Some (BMem false false, 4, 0x1000); None; None; None; None; None]; [Some (BMem false false, 8, 0x2000); None; None; None; None; None]].
Definition read_at (a : Z) : tlp := set_address a (set_tlen 1 (set_first_be 15 (set_requester_id (mkId 0 0 0) (set_fmt_type MEM_READ tlp0)))).
Lemma two_bars a : 0 <= a < 2 ^ 32 -> Forall2 (fun p l => bars (fst p) (snd p) l (TAddr false a)) (d_fns two_fns) two_ls.
Proof.
  intros A. constructor; [|constructor; [|constructor]]; (split; [vm_compute; repeat split; congruence|]; split; [reflexivity|]; split; [apply A|]; split;
    (constructor; [|constructor]); [cbn; lia|intros _; exact (proj2 A)]).
Qed.
Definition shown (r : res (dev * uact)) : option (Z * Z * pcie_id) :=
  match r with Ok (_, VReq u) => Some (bar_id u, bar_aperture u, completer_id (u_tlp u)) | _ => None end.
Example C48_ex : shown (us_upstream_recv usp_core true (read_at 0x100c) two_fns) = Some (0, 4, mkId 3 0 0) /\
  Forall2 (fun p l => bars (fst p) (snd p) l (TAddr false 0x100c)) (d_fns two_fns) two_ls /\ route_of MEM_READ (read_at 0x100c) = TAddr false 0x100c.
Proof. split; [vm_compute; reflexivity|]. split; [apply two_bars; lia|reflexivity]. Qed.
Example C48_config_ex : let t := set_completer_id (mkId 9 0 1) (set_fmt_type CFG_READ_0 tlp0) in
  match us_upstream_recv us_core true t two_fns with Ok (d, VFn k) => (d_bus d, map (fun p => f_id (fst p)) (d_fns d), k) | _ => (0, [], 0%nat) end =
  (9, [mkId 9 0 0; mkId 9 0 1], 1%nat).
Proof. vm_compute. reflexivity. Qed.
(** The aperture of a window of the second function is computed from the BARs of the first one. *)
Theorem C48_aperture_refuted : forall co, co = us_core \/ co = usp_core -> exists t d ls u m base,
  Forall2 (fun p l => bars (fst p) (snd p) l (TAddr false (address t))) (d_fns d) ls /\ fmt_type t = Ok MEM_READ /\
  us_upstream_recv co true t d = Ok (d, VReq u) /\ nth_error ls 1 = Some [Some (BMem false false, m, base); None; None; None; None; None] /\ base <= address t < base + 2 ^ m /\
  unclaimed false (address t) (firstn 1 ls) /\ bar_aperture u <> m.
Proof.
  intros co [-> | ->]; exists (read_at 0x2080), two_fns, two_ls; eexists; exists 8, 0x2000;
    (split; [apply two_bars; cbn; lia|]; split; [reflexivity|]; split; [vm_compute; reflexivity|]; split; [reflexivity|]; split; [cbn; lia|]; split; [repeat constructor|vm_compute; discriminate]).
Qed.
(** The completer id given to the user is that of another function (UltraScale: memory requests; UltraScale+: IO requests). *)
Theorem C48_completer_refuted : exists t d ls u, Forall2 (fun p l => bars (fst p) (snd p) l (TAddr false (address t))) (d_fns d) ls /\
  us_upstream_recv us_core true t d = Ok (d, VReq u) /\ unclaimed false (address t) (firstn 1 ls) /\ completer_id (u_tlp u) = mkId 3 0 0 /\
  map (fun p => f_id (fst p)) (d_fns d) = [mkId 3 0 0; mkId 3 0 1].
Proof.
  exists (read_at 0x2080), two_fns, two_ls. eexists. split; [apply two_bars; cbn; lia|]. split; [vm_compute; reflexivity|]. split; [repeat constructor|]. split; reflexivity.
Qed.

Print Assumptions C48_request_partial.
Print Assumptions C48_config.
Print Assumptions C48_disabled.
Print Assumptions C48_type1.
Print Assumptions C48_completion.
Print Assumptions C48_aperture_refuted.
Print Assumptions C48_completer_refuted.
