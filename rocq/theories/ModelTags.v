(** Tags and completion queues of a requester (core/function.py:446-545, core/rc.py:207-302), as a
    transition system: every segment between two [await]s is one event, and the events may occur in
    every order.  The two classes have the same code up to the number of tags.

    [perform_nonposted_operation] is a sequence of such segments; the operations are named by numbers
    chosen by the environment.  A completion that arrives carries the name of the operation it
    answers; the code does not see it (only the specification does). *)
From Verif Require Import Base ModelTlp ModelRegion.

(** The progress of one call of [perform_nonposted_operation] (core/function.py:510-545, core/rc.py:267-302). *)
Inductive op :=
| OIdle                                              (** not called yet *)
| OAlloc (r : tlp) (limit : Z)                       (** waiting for a tag (499-500 / 256-257); [limit] is [tag_count] *)
| OSend (r : tlp) (tag : Z)                          (** waiting for [send] (515 / 272) *)
| ORecv (r : tlp) (tag : Z) (acc : list (nat * tlp)) (** waiting for completions (518 / 275) *)
| ODone (r : tlp) (tag : Z) (acc : list (nat * tlp)) (** has returned [acc] (545 / 302) *)
| OFailed (r : tlp) (tag : Z).                       (** [send] raised an exception *)

(** What happened, oldest first; only the specification looks at it. *)
Inductive hist :=
| HArrive (o : nat) (c : tlp)           (** a completion for operation [o] arrived *)
| HTake (i o : nat) (c : tlp).          (** operation [i] took it *)
(** [t_rc]: a root complex; [t_ext] is [extended_tag_field_enable] of the PCIe capability. *)
Record tags := mkTags {
  t_rc : bool; t_ext : bool; t_count : Z; t_cur : Z; t_active : Z -> bool;
  t_queue : Z -> list (nat * tlp); t_op : nat -> op; t_hist : list hist }.
Definition fset {A} (k : Z) (v : A) (f : Z -> A) : Z -> A := fun x => if x =? k then v else f x.
Definition nset {A} (k : nat) (v : A) (f : nat -> A) : nat -> A := fun x => if Nat.eqb x k then v else f x.

(** core/function.py:50-56 (256 tags), core/rc.py:60-68 (32 tags) *)
Definition tags_new (rc : bool) : tags :=
  mkTags rc false (if rc then 32 else 256) 0 (fun _ => false) (fun _ => []) (fun _ => OIdle) [].

(** core/function.py:488, core/rc.py:245 *)
Definition tag_limit (s : tags) : Z :=
  Z.min (if t_rc s then 256 else if t_ext s then 256 else 32) (t_count s).
(** core/function.py:491-497, core/rc.py:248-254: the loop over [k]. *)
Fixpoint alloc_loop (k : nat) (count : Z) (active : Z -> bool) (tag : Z) : option Z :=
  match k with
  | O => None
  | S k =>
    let tag := (tag + 1) mod count in
    if negb (active tag) then Some tag else alloc_loop k count active tag
  end.
Definition alloc (limit : Z) (s : tags) : option Z :=
  alloc_loop (Z.to_nat limit) limit (t_active s) (t_cur s).

Definition set_op (i : nat) (o : op) (s : tags) : tags :=
  mkTags (t_rc s) (t_ext s) (t_count s) (t_cur s) (t_active s) (t_queue s) (nset i o (t_op s)) (t_hist s).
(** core/function.py:490-500, 513 / core/rc.py:247-257, 270: one pass of the outer loop. *)
Definition try_alloc (i : nat) (r : tlp) (limit : Z) (s : tags) : tags :=
  match alloc limit s with
  | None => set_op i (OAlloc r limit) s
  | Some tag =>
    mkTags (t_rc s) (t_ext s) (t_count s) tag (fset tag true (t_active s)) (t_queue s)
      (nset i (OSend (set_tag tag r) tag) (t_op s)) (t_hist s)
  end.
(** core/function.py:502-505, core/rc.py:259-262 *)
Definition release_tag (tag : Z) (s : tags) : res tags :=
  if t_active s tag then
    Ok (mkTags (t_rc s) (t_ext s) (t_count s) (t_cur s) (fset tag false (t_active s)) (t_queue s) (t_op s) (t_hist s))
  else Err AssertError.
(** core/function.py:525-541, core/rc.py:282-298: this completion ends the operation. *)
Definition ends (r cpl : tlp) : bool :=
  if negb (status cpl =? SC) then true
  else if is_mem_read r then
    (byte_count cpl <=? tlen cpl * 4 - Z.land (lower_address cpl) 3)
    || match fmt_type cpl with Ok CPL | Ok CPL_LOCKED => true | _ => false end
  else true.

Inductive tevent :=
| TCall (i : nat) (r : tlp)     (** operation [i] is called *)
| TWake (i : nat)               (** [tag_release] wakes it *)
| TSent (i : nat)               (** its [send] returns *)
| TFail (i : nat)               (** its [send] raises *)
| TCpl (o : nat) (c : tlp)      (** a completion arrives, an answer to operation [o] *)
| TTake (i : nat)               (** [recv_cpl] of operation [i] finds a completion *)
| TTimeout (i : nat)            (** [recv_cpl] of operation [i] times out *)
| TConfig (ext : bool) (count : Z).

Definition tstep (e : tevent) (s : tags) : res tags :=
  match e with
  | TCall i r => match t_op s i with OIdle => Ok (try_alloc i r (tag_limit s) s) | _ => Ok s end
  | TWake i => match t_op s i with OAlloc r limit => Ok (try_alloc i r limit s) | _ => Ok s end
  | TSent i => match t_op s i with OSend r tag => Ok (set_op i (ORecv r tag []) s) | _ => Ok s end
  | TFail i => match t_op s i with OSend r tag => Ok (set_op i (OFailed r tag) s) | _ => Ok s end
  | TCpl o c =>                                     (* function.py:449-452, rc.py:209-211 *)
    if (0 <=? tag c) && (tag c <? 256) then
      Ok (mkTags (t_rc s) (t_ext s) (t_count s) (t_cur s) (t_active s)
            (fset (tag c) (t_queue s (tag c) ++ [(o, c)]) (t_queue s)) (t_op s) (t_hist s ++ [HArrive o c]))
    else Err IndexError
  | TTake i =>                                      (* function.py:469-472 or 480-483, 523-541 *)
    match t_op s i with
    | ORecv r tag acc =>
      match t_queue s tag with
      | [] => Ok s
      | (o, c) :: q =>
        let s := mkTags (t_rc s) (t_ext s) (t_count s) (t_cur s) (t_active s) (fset tag q (t_queue s)) (t_op s)
          (t_hist s ++ [HTake i o c]) in
        if ends r c then release_tag tag (set_op i (ODone r tag (acc ++ [(o, c)])) s)
        else Ok (set_op i (ORecv r tag (acc ++ [(o, c)])) s)
      end
    | _ => Ok s
    end
  | TTimeout i =>                                   (* function.py:474-485, 520-521, 543 *)
    match t_op s i with
    | ORecv r tag acc =>
      match t_queue s tag with
      | [] => release_tag tag (set_op i (ODone r tag acc) s)
      | _ => Ok s
      end
    | _ => Ok s
    end
  | TConfig ext count => Ok (mkTags (t_rc s) ext count (t_cur s) (t_active s) (t_queue s) (t_op s) (t_hist s))
  end.
Fixpoint trun (es : list tevent) (s : tags) : res tags :=
  match es with [] => Ok s | e :: r => s <- tstep e s ;; trun r s end.
