(** core/region.py (requester side of memory and IO accesses) and the completion loop of
    [perform_nonposted_operation] (core/function.py:493-534, core/rc.py:267-302, same code).

    Simplifications.  The operations of one access run concurrently in Python
    ([cocotb.start_soon]); each has its own tag and completion queue (see ModelTags.v), so what an
    operation receives is modelled by an input [incoming], the list of completions its queue delivers
    before the timeout.  Loops count the remaining length down instead of a position up. *)
From Verif Require Import Base ModelUtils ModelTlp.

(** Python [l[i:j]] for 0 <= i. *)
Definition slice {A} (i j : Z) (l : list A) : list A := firstn (Z.to_nat (j - i)) (skipn (Z.to_nat i) l).

(** The attributes of [self.func] and [self.cfg] that the regions use, and the [attr], [tc] arguments. *)
Record req_cfg := mkReqCfg {
  rq_bus_master : bool; rq_id : pcie_id; rq_mrrs : Z; rq_mps : Z; rq_attr : Z; rq_tc : Z }.

(** core/region.py:57-64 and 125-132 *)
Definition new_mem_req (c : req_cfg) (addr : Z) (t32 t64 : tlp_type) : tlp :=
  let req := set_fmt_type (if addr >? 0xffffffff then t64 else t32) tlp0 in
  set_tc (rq_tc c) (set_attr (rq_attr c) (set_requester_id (rq_id c) req)).

(** core/region.py:66-74 *)
Definition read_len (mrrs addr rem : Z) : Z :=
  let first_pad := addr mod 4 in
  let bl := rem in
  let bl := if bl >? Z.shiftl 128 mrrs - first_pad then Z.min bl (Z.shiftl 128 mrrs - Z.land addr 0x7f) else bl in
  Z.min bl (0x1000 - Z.land addr 0xfff).

(** core/region.py:56-83; [fuel] bounds the number of requests, the remaining length is enough since
    every request covers at least one byte. *)
Fixpoint read_split (fuel : nat) (c : req_cfg) (zero_len : bool) (addr rem : Z) : list (Z * tlp) :=
  match fuel with
  | O => []
  | S f =>
    if 0 <? rem then
      let bl := read_len (rq_mrrs c) addr rem in
      let req := snd (set_addr_be addr bl (new_mem_req c addr MEM_READ MEM_READ_64)) in
      let req := if zero_len then set_first_be 0 req else req in
      (bl, req) :: read_split f c zero_len (addr + bl) (rem - bl)
    else []
  end.
(** core/region.py:45-47 *)
Definition read_ops (c : req_cfg) (addr length : Z) : list (Z * tlp) :=
  let zero_len := length <=? 0 in
  let length := if zero_len then 1 else length in
  read_split (Z.to_nat length) c zero_len addr length.

(** core/function.py:500-530 / core/rc.py:274-298: which of the received completions make up the
    result.  [mem_read] is [req.fmt_type in {MEM_READ, MEM_READ_64}]; running out of [incoming] is
    the timeout. *)
Fixpoint collect (mem_read : bool) (incoming : list tlp) : list tlp :=
  match incoming with
  | [] => []
  | cpl :: r =>
    if negb (status cpl =? SC) then [cpl]
    else if mem_read then
      if byte_count cpl <=? tlen cpl * 4 - Z.land (lower_address cpl) 3 then [cpl]
      else match fmt_type cpl with
           | Ok CPL | Ok CPL_LOCKED => [cpl]
           | _ => cpl :: collect mem_read r
           end
    else [cpl]
  end.
Definition is_mem_read (req : tlp) : bool :=
  match fmt_type req with Ok MEM_READ | Ok MEM_READ_64 => true | _ => false end.
Definition nonposted (req : tlp) (incoming : list tlp) : list tlp := collect (is_mem_read req) incoming.

(** core/region.py:88-105 *)
Fixpoint read_join (byte_length m : Z) (cpls : list tlp) (acc : list Z) : res (list Z) :=
  match cpls with
  | [] => if m <? byte_length then Err PyException else Ok acc
  | cpl :: r =>
    if m <? byte_length then
      if negb (status cpl =? SC) then Err PyException
      else if negb (byte_count cpl + 3 + Z.land (lower_address cpl) 3 >=? tlen cpl * 4) then Err AssertError
      else if negb (byte_count cpl =? Z.max (byte_length - m) 1) then Err AssertError
      else
        let d := data cpl in
        let offset := Z.land (lower_address cpl) 3 in
        read_join byte_length (m + (zlen d - offset)) r (acc ++ slice offset (offset + byte_count cpl) d)
    else Ok acc
  end.
(** core/region.py:85-105, all operations; [incoming] gives the completions received for the n-th. *)
Fixpoint read_join_all (incoming : nat -> tlp -> list tlp) (n : nat) (ops : list (Z * tlp)) (acc : list Z) : res (list Z) :=
  match ops with
  | [] => Ok acc
  | (bl, req) :: r =>
    acc <- read_join bl 0 (nonposted req (incoming n req)) acc ;;
    read_join_all incoming (S n) r acc
  end.
(** core/region.py:41-110 [MemoryTlpRegion.read] *)
Definition mem_read (c : req_cfg) (incoming : nat -> tlp -> list tlp) (addr length : Z) : res (list Z) :=
  if negb (rq_bus_master c) then Err PyException
  else
    d <- read_join_all incoming 0 (read_ops c addr length) [] ;;
    if length <=? 0 then Ok [] else Ok (firstn (Z.to_nat length) d).

(** core/region.py:134-137 *)
Definition write_len (mps addr rem : Z) : Z :=
  let first_pad := addr mod 4 in
  Z.min (Z.min rem (Z.shiftl 128 mps - first_pad)) (0x1000 - Z.land addr 0xfff).
(** core/region.py:124-144 *)
Fixpoint write_split (fuel : nat) (c : req_cfg) (zero_len : bool) (addr : Z) (d : list Z) : list tlp :=
  match fuel with
  | O => []
  | S f =>
    if 0 <? zlen d then
      let bl := write_len (rq_mps c) addr (zlen d) in
      let req := set_addr_be_data addr (slice 0 bl d) (new_mem_req c addr MEM_WRITE MEM_WRITE_64) in
      let req := if zero_len then set_first_be 0 req else req in
      req :: write_split f c zero_len (addr + bl) (skipn (Z.to_nat bl) d)
    else []
  end.
(** core/region.py:112-144 [MemoryTlpRegion.write]: the sequence of posted requests. *)
Definition mem_write (c : req_cfg) (addr : Z) (d : list Z) : res (list tlp) :=
  if negb (rq_bus_master c) then Err PyException
  else
    let zero_len := zlen d =? 0 in
    let d := if zero_len then [0] else d in
    Ok (write_split (length d) c zero_len addr d).

(** core/region.py:166-185; operations are (first_pad, request). *)
Fixpoint io_read_split (fuel : nat) (c : req_cfg) (zero_len : bool) (addr rem : Z) : list (Z * tlp) :=
  match fuel with
  | O => []
  | S f =>
    if 0 <? rem then
      let first_pad := addr mod 4 in
      let bl := Z.min rem (4 - first_pad) in
      let req := set_requester_id (rq_id c) (set_fmt_type IO_READ tlp0) in
      let req := snd (set_addr_be addr bl req) in
      let req := if zero_len then set_first_be 0 req else req in
      (first_pad, req) :: io_read_split f c zero_len (addr + bl) (rem - bl)
    else []
  end.
(** core/region.py:187-199 *)
Fixpoint io_read_join (incoming : nat -> tlp -> list tlp) (n : nat) (ops : list (Z * tlp)) (acc : list Z) : res (list Z) :=
  match ops with
  | [] => Ok acc
  | (first_pad, req) :: r =>
    match nonposted req (incoming n req) with
    | [] => Err PyException
    | cpl :: _ =>
      if negb (status cpl =? SC) then Err PyException
      else if negb (tlen cpl =? 1) then Err AssertError
      else io_read_join incoming (S n) r (acc ++ skipn (Z.to_nat first_pad) (data cpl))
    end
  end.
(** core/region.py:152-204 [IoTlpRegion.read] *)
Definition io_read (c : req_cfg) (incoming : nat -> tlp -> list tlp) (addr length : Z) : res (list Z) :=
  let zero_len := length <=? 0 in
  let len := if zero_len then 1 else length in
  if negb (rq_bus_master c) then Err PyException
  else
    d <- io_read_join incoming 0 (io_read_split (Z.to_nat len) c zero_len addr len) [] ;;
    if zero_len then Ok [] else Ok (firstn (Z.to_nat len) d).

(** core/region.py:218-233 *)
Fixpoint io_write_split (fuel : nat) (c : req_cfg) (zero_len : bool) (addr : Z) (d : list Z) : list tlp :=
  match fuel with
  | O => []
  | S f =>
    if 0 <? zlen d then
      let first_pad := addr mod 4 in
      let bl := Z.min (zlen d) (4 - first_pad) in
      let req := set_requester_id (rq_id c) (set_fmt_type IO_WRITE tlp0) in
      let req := set_addr_be_data addr (slice 0 bl d) req in
      let req := if zero_len then set_first_be 0 req else req in
      req :: io_write_split f c zero_len (addr + bl) (skipn (Z.to_nat bl) d)
    else []
  end.
(** core/region.py:206-240 [IoTlpRegion.write]: the requests; then every one must be answered by a
    successful completion. *)
Definition io_write (c : req_cfg) (addr : Z) (d : list Z) : res (list tlp) :=
  if negb (rq_bus_master c) then Err PyException
  else
    let zero_len := zlen d =? 0 in
    let d := if zero_len then [0] else d in
    Ok (io_write_split (length d) c zero_len addr d).
Fixpoint io_write_join (incoming : nat -> tlp -> list tlp) (n : nat) (reqs : list tlp) : res unit :=
  match reqs with
  | [] => Ok tt
  | req :: r =>
    match nonposted req (incoming n req) with
    | [] => Err PyException
    | cpl :: _ => if negb (status cpl =? SC) then Err PyException else io_write_join incoming (S n) r
    end
  end.
