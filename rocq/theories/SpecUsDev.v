(** Specification of the UltraScale device models. *)
From Verif Require Import Base ModelUtils ModelTlp ModelFrames ModelUs SpecMem ModelUsDev.
From Coq Require Import Permutation.

(** Requests that a completion answers. *)
Definition needs_answer (t : tlp) : bool :=
  match fmt_type t with
  | Ok MEM_WRITE | Ok MEM_WRITE_64 => false
  | Ok ty => match type_fc ty with Ok FC_NP => true | _ => false end
  | Err _ => false
  end.
Definition memory_read (t : tlp) : bool := match fmt_type t with Ok MEM_READ | Ok MEM_READ_64 => true | _ => false end.
Definition without_data (c : tlp) : bool := match fmt_type c with Ok CPL | Ok CPL_LOCKED => true | _ => false end.

(** Completion [c] belongs to the transaction of request [r]. *)
Definition matches (r c : tlp) : bool := id_eqb (requester_id c) (requester_id r) && (attr c =? attr r) && (tc c =? tc r).
(** It is the last one: it reports an error, or nothing else is expected, or it covers all remaining bytes. *)
Definition final (r c : tlp) : bool :=
  negb (status c =? SC) || negb (memory_read r) || without_data c || (byte_count c <=? 4 * tlen c - lower_address c mod 4).
Definition ends_request (c r : tlp) : bool := (tag r =? tag c) && matches r c && final r c.

(** The requests that are outstanding after a sequence of events. *)
Fixpoint opened_from (o : list tlp) (l : list uevent) : list tlp :=
  match l with
  | [] => o
  | EIssue u _ :: l => opened_from (if needs_answer (u_tlp u) then o ++ [u_tlp u] else o) l
  | ECpl c _ _ :: l => opened_from (filter (fun r => negb (ends_request c r)) o) l
  | _ :: l => opened_from o l
  end.
Definition opened (l : list uevent) : list tlp := opened_from [] l.

(** The address of the first byte of a completion: its byte count counts down to the last byte asked for. *)
Definition byte_address (r c : tlp) : Z := last_byte r + 1 - byte_count c.
(** The error code of the RC descriptor (PG213, requester completion descriptor). *)
Definition code_of (open : list tlp) (c : tlp) : Z :=
  match find (fun r => tag r =? tag c) open with
  | None => INVALID_TAG
  | Some r =>
    if negb (matches r c) then MISMATCH
    else if negb (status c =? SC) then BAD_STATUS
    else if memory_read r && without_data c then INVALID_LENGTH
    else if memory_read r && negb (lower_address c =? byte_address r c mod 128) then INVALID_ADDRESS
    else if ep c then POISONED
    else NORMAL_TERMINATION
  end.
(** The address field: 12 bits of the address, if the seven bits of the completion agree with it. *)
Definition address_of (open : list tlp) (c : tlp) : Z :=
  match find (fun r => tag r =? tag c) open with
  | Some r => if matches r c && (status c =? SC) && memory_read r && (lower_address c =? byte_address r c mod 128)
              then byte_address r c mod 4096 else lower_address c
  | None => lower_address c
  end.

(** What the RC stream gets for completion [c]. *)
Definition judged (open : list tlp) (c : tlp) (u : tlp_us) : Prop :=
  u_tlp u = set_lower_address (address_of open c) (tlp_copy c) /\ error_code u = code_of open c /\
  request_completed u = (if existsb (ends_request c) open then 1 else 0) /\ discontinue u = false.

(** ** Projections of the events *)
Definition accepted (l : list uevent) : list tlp_us := flat_map (fun e => match e with EAccept u => [u] | _ => [] end) l.
Definition dropped (l : list uevent) : list tlp_us := flat_map (fun e => match e with EDrop u => [u] | _ => [] end) l.
Definition issued (l : list uevent) : list tlp_us := flat_map (fun e => match e with EIssue u _ => [u] | _ => [] end) l.
(** Requests in the order in which they were sent or discarded. *)
Definition settled (l : list uevent) : list tlp_us :=
  flat_map (fun e => match e with EIssue u _ | EDrop u => [u] | _ => [] end) l.
Definition stored (l : list uevent) : list tlp_us := flat_map (fun e => match e with ECpl _ u true => [u] | _ => [] end) l.
Definition lost (l : list uevent) : nat := length (filter (fun e => match e with ECpl _ _ false => true | _ => false end) l).
Definition given (l : list uevent) : list tlp_us := flat_map (fun e => match e with EOut u => [u] | _ => [] end) l.
Definition shown_tags (l : list uevent) : list Z := flat_map (fun e => match e with ETag t => [t] | _ => [] end) l.
Definition shown_seqs (l : list uevent) : list Z := flat_map (fun e => match e with ESeq n => [n] | _ => [] end) l.
Definition shown_errors (l : list uevent) : nat := length (filter (fun e => match e with EErr => true | _ => false end) l).

(** Requests that nothing answers. *)
Definition posted (l : list tlp_us) : list tlp_us := filter (fun u => negb (needs_answer (u_tlp u))) l.
(** Reads have no payload; IO and configuration writes have one. *)
Definition dataless (u : tlp_us) : Prop := needs_answer (u_tlp u) = true -> data (u_tlp u) = [].
Definition no_data (l : ulabel) : Prop := match l with LCpl c => data c = [] | _ => True end.
Definition usual_core (o : uopt) : Prop := 0 <= co_cplh (o_core o) /\ 0 <= co_cpld (o_core o).
(** A request without the tag, which the core replaces unless the user chooses tags. *)
Definition untagged (o : uopt) (u : tlp_us) : tlp_us := if o_client o then u else on_tlp (set_tag 0) u.
(** Requests between acceptance and [send]. *)
Definition held_a (a : rqtask) : list tlp_us := match a with AFull u => [u] | _ => [] end.
Definition held_b (b : nptask) : list tlp_us := match b with BCredit u | BTag u => [u] | _ => [] end.
(** Requests in [send]. *)
Definition sending_a (a : rqtask) : list tlp_us := match a with ASend u => [u] | _ => [] end.
Definition sending_b (b : nptask) : list tlp_us := match b with BSend u => [u] | _ => [] end.
Definition sending_r (r : rctask) : list tlp_us := match r with RSend u => [u] | _ => [] end.

(** ** Completer requests *)
(** Requests that the core may send only if the user has room for them. *)
Definition is_np (u : tlp_us) : bool :=
  match fmt_type (u_tlp u) with Ok IO_READ | Ok IO_WRITE | Ok MEM_READ | Ok MEM_READ_64 => true | _ => false end.
Definition arrivals (l : list cqlabel) : list tlp_us := flat_map (fun x => match x with KArrive u => [u] | _ => [] end) l.
(** The number of requests the user has said there is room for. *)
Definition grants (l : list cqlabel) : Z := zlen (filter (fun x => match x with KClock true => true | _ => false end) l).
(** [overtaken l l']: in [l'] some posted requests have passed requests of the other kind; nothing else has changed. *)
Inductive overtaken : list tlp_us -> list tlp_us -> Prop :=
| ov_refl l : overtaken l l
| ov_pass l a n p b : overtaken l (a ++ n :: p :: b) -> is_np n = true -> is_np p = false -> overtaken l (a ++ p :: n :: b).
(** One clock period in which the user makes room for one more request and the coroutine takes up to [m] steps. *)
Definition period (m : nat) : list cqlabel := KClock true :: repeat KStep m.
(** A request the completer interface can carry, and the number of requests it still has to carry. *)
Definition sendable (u : tlp_us) : Prop := (exists ty, fmt_type (u_tlp u) = Ok ty) /\ exists f, pack_us_cq u = Ok f.
Definition waiting (s : cqs) : nat := length (k_np s) + length (k_new s).
(** Space that completions take in the receive buffer, in units of 16 bytes: the payload, and one unit for the header. *)
Definition buffer_space (l : list tlp_us) : Z := fold_right (fun u n => (zlen (data (u_tlp u)) / 4 + 3) / 4 + 1 + n) 0 l.
