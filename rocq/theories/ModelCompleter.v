(** The completers: [MemoryEndpoint] (core/endpoint.py:184-438) and [RootComplex] (core/rc.py:304-561).

    Memory is a function from addresses to bytes.  An endpoint region is an anonymous [mmap] of a
    given size ([read]/[write] callbacks supplied by a user are not modelled).  The host address
    space ([cocotbext.axi.AddressSpace]) is outside the package: it is modelled by its cells, the
    answer of [find_regions] and by whether a range can be accessed without exception. *)
From Verif Require Import Base ModelUtils ModelTlp ModelRegion.

Definition mem := Z -> Z.
Definition read_mem (m : mem) (a n : Z) : list Z := map (fun i => m (a + Z.of_nat i)) (List.seq 0 (Z.to_nat n)).
Definition write_mem (m : mem) (a : Z) (d : list Z) : mem :=
  fun x => if (a <=? x) && (x <? a + zlen d) then nth (Z.to_nat (x - a)) d 0 else m x.

(** core/endpoint.py:220-226 [read_region]: slicing an mmap stops at its end. *)
Record region := mkRegion { rg_size : Z; rg_mem : mem }.
Definition read_region (r : region) (a n : Z) : list Z := read_mem (rg_mem r) a (Z.min n (rg_size r - a)).
(** core/endpoint.py:228-234 [write_region]: slice assignment beyond the end raises. *)
Definition write_region (r : region) (a : Z) (d : list Z) : res region :=
  if a + zlen d <=? rg_size r then Ok (mkRegion (rg_size r) (write_mem (rg_mem r) a d)) else Err IndexError.

(** The byte enable scan over one DWORD, core/endpoint.py:392-401, 412-421 and the other handlers
    (also core/rc.py): state is (offset, start_offset, list of completed runs [start, offset) in
    order). *)
Definition scan_state := (Z * option Z * list (Z * Z))%type.
Definition scan_lane (mask k : Z) (s : scan_state) : scan_state :=
  let '(offset, start, runs) := s in
  if zbool (Z.land mask (Z.shiftl 1 k)) then
    (offset + 1, match start with None => Some offset | Some _ => start end, runs)
  else
    (offset + 1, None, match start with
                       | Some st => if negb (offset =? st) then runs ++ [(st, offset)] else runs
                       | None => runs
                       end).
Definition scan_dword (mask : Z) (s : scan_state) : scan_state :=
  fold_left (fun s k => scan_lane mask k s) [0; 1; 2; 3] s.
(** The final flush, core/endpoint.py:423-424. *)
Definition scan_flush (s : scan_state) : list (Z * Z) :=
  let '(offset, start, runs) := s in
  match start with
  | Some st => if negb (offset =? st) then runs ++ [(st, offset)] else runs
  | None => runs
  end.
(** core/endpoint.py:389-424, core/rc.py:513-551: runs of enabled bytes of a memory write. *)
Definition write_runs (t : tlp) : list (Z * Z) :=
  let s := scan_dword (first_be t) (0, None, []) in
  let s := if tlen t >? 2 then
             let '(offset, start, runs) := s in
             (offset + (tlen t - 2) * 4, match start with None => Some offset | Some _ => start end, runs)
           else s in
  let s := if tlen t >? 1 then scan_dword (last_be t) s else s in
  scan_flush s.
(** core/endpoint.py:265-277, core/rc.py:331-345: runs of one DWORD (IO). *)
Definition io_runs (t : tlp) : list (Z * Z) := scan_flush (scan_dword (first_be t) (0, None, [])).

(** core/endpoint.py:350-371 and core/rc.py:464-493: splitting a read into completions.
    [rcb], [split_all] and the completer id distinguish the two; [m], [n], [addr] as in the code. *)
Fixpoint cpl_split (fuel : nat) (cid : pcie_id) (t : tlp) (max_dw rcb : Z) (split_all : bool)
    (d : list Z) (dw_length byte_length m n addr : Z) : list tlp :=
  match fuel with
  | O => []
  | S f =>
    if m <? dw_length then
      let cpl := create_completion_data t cid in
      let cpl_dw := dw_length - m in
      let cpl := set_byte_count (byte_length - n) cpl in
      let rcb_mask := Z.land (rcb - 1) 0xfc in
      let cpl_dw :=
        if split_all then Z.min cpl_dw (Z.shiftr (rcb - Z.land addr rcb_mask) 2)
        else if cpl_dw >? max_dw then max_dw - Z.shiftr (Z.land addr rcb_mask) 2
        else cpl_dw in
      let cpl := set_lower_address (Z.land addr 0x7f) cpl in
      let cpl := tlp_set_data (slice (m * 4) ((m + cpl_dw) * 4) d) cpl in
      cpl :: cpl_split f cid t max_dw rcb split_all d dw_length byte_length
        (m + cpl_dw) (n + (cpl_dw * 4 - Z.land addr 3)) (addr + (cpl_dw * 4 - Z.land addr 3))
    else []
  end.
Definition completions (cid : pcie_id) (t : tlp) (mps rcb : Z) (split_all : bool) (d : list Z) : list tlp :=
  cpl_split (Z.to_nat (tlen t)) cid t (Z.shiftl 32 mps) rcb split_all d (tlen t) (get_be_byte_count t) 0 0
    (address t + get_first_be_offset t).

(** ** Endpoint.  [bar] is the result of [match_bar]: the region and the offset in it. *)

(** core/endpoint.py:318-371 [MemoryEndpoint.handle_mem_read_tlp]: the completions sent. *)
Definition ep_mem_read (cid : pcie_id) (mps : Z) (bar : option (region * Z)) (t : tlp) : list tlp :=
  match bar with
  | None => [create_ur_completion t cid]
  | Some (r, addr) =>
    if tlen t * 4 >? 0x1000 - Z.land addr 0xfff then []
    else completions cid t mps 128 false (read_region r addr (tlen t * 4))
  end.

Fixpoint region_writes (r : region) (addr : Z) (d : list Z) (runs : list (Z * Z)) : res region :=
  match runs with
  | [] => Ok r
  | (s, e) :: l => r <- write_region r (addr + s) (slice s e d) ;; region_writes r addr d l
  end.
(** core/endpoint.py:373-426 [MemoryEndpoint.handle_mem_write_tlp] *)
Definition ep_mem_write (bar : option (region * Z)) (t : tlp) : res (option region) :=
  match bar with
  | None => Ok None
  | Some (r, addr) =>
    if tlen t * 4 >? 0x1000 - Z.land addr 0xfff then Ok (Some r)
    else r <- region_writes r addr (data t) (write_runs t) ;; Ok (Some r)
  end.

(** Reading the enabled runs of one DWORD into four zero bytes, core/endpoint.py:262-277. *)
Fixpoint read_runs (rd : Z -> Z -> list Z) (addr : Z) (runs : list (Z * Z)) (d : list Z) : list Z :=
  match runs with
  | [] => d
  | (s, e) :: l =>
    read_runs rd addr l (firstn (Z.to_nat s) d ++ rd (addr + s) (e - s) ++ skipn (Z.to_nat e) d)
  end.
(** core/endpoint.py:236-284 [MemoryEndpoint.handle_io_read_tlp] *)
Definition ep_io_read (cid : pcie_id) (bar : option (region * Z)) (t : tlp) : res (list tlp) :=
  match bar with
  | None => Ok [create_ur_completion t cid]
  | Some (r, addr) =>
    _ <- py_assert (tlen t =? 1) ;;
    let d := read_runs (read_region r) addr (io_runs t) (zeros 4) in
    let cpl := tlp_set_data d (create_completion_data t cid) in
    Ok [set_tlen 1 (set_byte_count 4 cpl)]
  end.
(** core/endpoint.py:286-316 [MemoryEndpoint.handle_io_write_tlp]; the log message at the beginning
    unpacks the payload as one DWORD and raises if it is anything else. *)
Definition ep_io_write (cid : pcie_id) (bar : option (region * Z)) (t : tlp) : res (list tlp * option region) :=
  if negb (zlen (data t) =? 4) then Err StructError else
  match bar with
  | None => Ok ([create_ur_completion t cid], None)
  | Some (r, addr) =>
    _ <- py_assert (tlen t =? 1) ;;
    r <- region_writes r addr (data t) (io_runs t) ;;
    Ok ([set_byte_count 4 (create_completion t cid false SC)], Some r)
  end.

(** ** Root complex *)
Record host_mem := mkHost {
  h_find : Z -> Z -> bool;       (** [find_regions(addr, size)] is not empty *)
  h_access : Z -> Z -> bool;     (** reading or writing [size] bytes at [addr] does not raise *)
  h_mem : mem }.
Record rc_cfg := mkRcCfg { rc_mps : Z; rc_rcb128 : bool; rc_split_all : bool }.

(** core/rc.py:426-493 [RootComplex.handle_mem_read_tlp] *)
Definition rc_mem_read (c : rc_cfg) (h : host_mem) (t : tlp) : list tlp :=
  if negb (h_find h (address t) (tlen t * 4)) then [create_ur_completion t id0]
  else if tlen t * 4 >? 0x1000 - Z.land (address t) 0xfff then []
  else if negb (h_access h (address t) (tlen t * 4)) then [create_ca_completion t id0]
  else completions id0 t (rc_mps c) (if rc_rcb128 c then 128 else 64) (rc_split_all c)
         (read_mem (h_mem h) (address t) (tlen t * 4)).

(** A failing write ends the sequence (core/rc.py:553-559); earlier writes stay. *)
Fixpoint host_writes (h : host_mem) (addr : Z) (d : list Z) (runs : list (Z * Z)) : bool * host_mem :=
  match runs with
  | [] => (true, h)
  | (s, e) :: l =>
    if h_access h (addr + s) (zlen (slice s e d)) then
      host_writes (mkHost (h_find h) (h_access h) (write_mem (h_mem h) (addr + s) (slice s e d))) addr d l
    else (false, h)
  end.
(** core/rc.py:495-561 [RootComplex.handle_mem_write_tlp] *)
Definition rc_mem_write (h : host_mem) (t : tlp) : host_mem :=
  if negb (h_find h (address t) (tlen t * 4)) then h
  else if tlen t * 4 >? 0x1000 - Z.land (address t) 0xfff then h
  else snd (host_writes h (address t) (data t) (write_runs t)).

(** core/rc.py:304-364 [RootComplex.handle_io_read_tlp] *)
Definition rc_io_read (h : host_mem) (t : tlp) : res (list tlp) :=
  if negb (h_find h (address t) (tlen t * 4)) then Ok [create_ur_completion t id0]
  else
    _ <- py_assert (tlen t =? 1) ;;
    if negb (forallb (fun '(s, e) => h_access h (address t + s) (e - s)) (io_runs t)) then
      Ok [create_ca_completion t id0]
    else
      let d := read_runs (read_mem (h_mem h)) (address t) (io_runs t) (zeros 4) in
      Ok [set_tlen 1 (set_byte_count 4 (tlp_set_data d (create_completion_data t id0)))].
(** core/rc.py:366-424 [RootComplex.handle_io_write_tlp] *)
Definition rc_io_write (h : host_mem) (t : tlp) : res (list tlp * host_mem) :=
  if negb (h_find h (address t) (tlen t * 4)) then Ok ([create_ur_completion t id0], h)
  else
    _ <- py_assert (tlen t =? 1) ;;
    let '(ok, h) := host_writes h (address t) (data t) (io_runs t) in
    if ok then Ok ([set_byte_count 4 (create_completion t id0 false SC)], h)
    else Ok ([create_ca_completion t id0], h).
