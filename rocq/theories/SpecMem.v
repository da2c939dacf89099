(** Specification of memory accesses: which bytes a list of requests covers, what a correct list of
    completions is, what memory looks like after a write. *)
From Verif Require Import Base ModelUtils ModelTlp ModelRegion ModelCompleter SpecTlp.

(** [covers_write a d ts]: the requests transfer the bytes [d] to the addresses from [a] on, each byte
    once, in ascending order. *)
Inductive covers_write : Z -> list Z -> list tlp -> Prop :=
| cw_nil a : covers_write a [] []
| cw_cons a d d' t ts :
    d <> [] -> (forall x, addressed t x <-> a <= x < a + zlen d) -> enabled_data t = d ->
    covers_write (a + zlen d) d' ts -> covers_write a (d ++ d') (t :: ts).
(** The same for reads: [n] bytes from [a]; each request is listed with the number of its bytes. *)
Inductive covers_read : Z -> Z -> list (Z * tlp) -> Prop :=
| cr_nil a : covers_read a 0 []
| cr_cons a n k t ts :
    1 <= k -> (forall x, addressed t x <-> a <= x < a + k) ->
    covers_read (a + k) n ts -> covers_read a (k + n) ((k, t) :: ts).

(** A request that obeys the size limit and the page rule and passes validation; [ty32], [ty64] are
    the types for addresses below and above 4 GiB. *)
Record request_ok (ty32 ty64 : tlp_type) (limit : Z) (t : tlp) : Prop := {
  ro_len : 1 <= tlen t;
  ro_align : address t mod 4 = 0;
  ro_size : 4 * tlen t <= limit;
  ro_page : address t / 4096 = (address t + 4 * tlen t - 1) / 4096;
  ro_type : fmt_type t = Ok (if address t <? 2 ^ 32 then ty32 else ty64);
  ro_check : tlp_check t = Ok true }.

(** [good_split rcb limit a n d cs]: [cs] is a correct completion of the [n] bytes from address [a]
    on, where [d] are the DWORDs that contain them.  Byte counts count down, the lower address is
    that of the first byte, splits are at multiples of [rcb], no payload exceeds [limit] bytes. *)
Inductive good_split (rcb limit : Z) : Z -> Z -> list Z -> list tlp -> Prop :=
| gs_last a n d c :
    1 <= n -> byte_count c = n -> lower_address c = a mod 128 -> data c = d -> 4 * tlen c = zlen d ->
    zlen d <= limit -> zlen d - 3 <= a mod 4 + n <= zlen d ->
    good_split rcb limit a n d [c]
| gs_more a n d d' c cs :
    byte_count c = n -> lower_address c = a mod 128 -> data c = d -> 4 * tlen c = zlen d ->
    0 < zlen d <= limit -> zlen d < a mod 4 + n ->
    (rcb | a - a mod 4 + zlen d) ->
    good_split rcb limit (a - a mod 4 + zlen d) (a mod 4 + n - zlen d) d' cs ->
    good_split rcb limit a n (d ++ d') (c :: cs).

(** The payload limit: the max payload size, or one read completion boundary if a completer splits
    at every boundary. *)
Definition split_limit (mps rcb : Z) (split_all : bool) : Z := if split_all then rcb else 128 * 2 ^ mps.

(** A read request a completer may be given. *)
Record read_request (t : tlp) : Prop := {
  rr_len : 1 <= tlen t; rr_be : 0 <= first_be t < 16; rr_addr : address t mod 4 = 0 }.

(** The bytes a read request asks for: from the lowest enabled lane of the first DWORD to the highest
    enabled lane of the last one.  With no lane enabled (zero-length read) lane 3 stands for both. *)
Definition low_lane (be : Z) : Z :=
  if Z.testbit be 0 then 0 else if Z.testbit be 1 then 1 else if Z.testbit be 2 then 2 else 3.
Definition high_lane (be : Z) : Z :=
  if Z.testbit be 3 then 3 else if Z.testbit be 2 then 2 else if Z.testbit be 1 then 1
  else if Z.testbit be 0 then 0 else 3.
Definition first_byte (t : tlp) : Z := address t + low_lane (first_be t).
Definition last_byte (t : tlp) : Z :=
  address t + 4 * (tlen t - 1) + high_lane (if tlen t =? 1 then first_be t else last_be t).

(** What a completion copies from its request. *)
Record answers (cid : pcie_id) (t c : tlp) : Prop := {
  an_type : fmt_type c = Ok CPL_DATA;
  an_status : status c = 0;
  an_cid : completer_id c = cid;
  an_rid : requester_id c = requester_id t;
  an_tag : tag c = tag t;
  an_tc : tc c = tc t;
  an_attr : attr c = attr t }.

(** [good_answer m t l]: the completer answers [t] (sent with some tag) from memory [m]. *)
Record good_answer (m : mem) (t : tlp) (l : list tlp) : Prop := {
  ga_split : exists rcb limit, (4 | rcb) /\
    good_split rcb limit (first_byte t) (last_byte t - first_byte t + 1) (read_mem m (address t) (4 * tlen t)) l;
  ga_answers : exists cid tg, Forall (answers cid (set_tag tg t)) l }.

(** Byte [i] counted from the first DWORD of a request is enabled. *)
Definition byte_enabled (t : tlp) (i : Z) : bool :=
  (0 <=? i) && (i <? 4 * tlen t) && lane_enabled (tlen t) (first_be t) (last_be t) (i / 4) (i mod 4).
(** Memory after writing the enabled bytes of [t] at [base]. *)
Definition masked_write (m : mem) (base : Z) (t : tlp) : mem :=
  fun x => if byte_enabled t (x - base) then nth (Z.to_nat (x - base)) (data t) 0 else m x.
(** Memory after replacing the bytes from [a] on by [d]. *)
Definition replaced (m : mem) (a : Z) (d : list Z) : mem :=
  fun x => if (a <=? x) && (x <? a + zlen d) then nth (Z.to_nat (x - a)) d 0 else m x.

(** The DWORDs an access of [n] bytes at [addr] touches (a zero-length access touches one). *)
Definition hull_lo (addr : Z) : Z := 4 * (addr / 4).
Definition hull_hi (addr n : Z) : Z := 4 * ((addr + Z.max n 1 + 3) / 4).
(** What an endpoint region at [base] looks like from the bus. *)
Definition bus_mem (r : region) (base : Z) : mem := fun x => rg_mem r (x - base).
(** A region of [size] bytes at [base] such that the offset in the region tells whether a page boundary
    is crossed; any base that is a multiple of a power of two size satisfies it. *)
Definition page_safe (base size : Z) : Prop := (4096 | base) \/ base mod 4096 + size <= 4096.
(** An endpoint handles a sequence of memory writes, all of which fall into the region at [base]. *)
Fixpoint ep_write_all (base : Z) (r : region) (ts : list tlp) : res region :=
  match ts with
  | [] => Ok r
  | t :: l =>
    match ep_mem_write (Some (r, address t - base)) t with
    | Ok (Some r') => ep_write_all base r' l
    | Ok None => Err PyException
    | Err e => Err e
    end
  end.

(** The answer to an IO read: one successful completion with one DWORD, enabled bytes from memory [m]. *)
Record good_io_answer (m : mem) (t c : tlp) : Prop := {
  gi_status : status c = 0;
  gi_len : tlen c = 1;
  gi_data : data c = map (fun i => if byte_enabled t i then m (address t + i) else 0) [0; 1; 2; 3] }.
(** An endpoint handles a sequence of IO writes to the region at [base]; [tg] gives the tags. *)
Fixpoint ep_io_write_all (cid : pcie_id) (base : Z) (tg : nat -> Z) (i : nat) (r : region) (ts : list tlp) : res (list (list tlp) * region) :=
  match ts with
  | [] => Ok ([], r)
  | t :: l =>
    match ep_io_write cid (Some (r, address t - base)) (set_tag (tg i) t) with
    | Ok (cs, Some r') => '(css, r2) <- ep_io_write_all cid base tg (S i) r' l ;; Ok (cs :: css, r2)
    | Ok (_, None) => Err PyException
    | Err e => Err e
    end
  end.

(** A completion whose length field agrees with its payload. *)
Definition wf_cpl (c : tlp) : Prop := zlen (data c) = 4 * tlen c.

(** An IO request: one DWORD, no last byte enables, passes validation. *)
Definition io_req_ok (ty : tlp_type) (c : req_cfg) (t : tlp) : Prop :=
  tlen t = 1 /\ address t mod 4 = 0 /\ fmt_type t = Ok ty /\ last_be t = 0 /\ requester_id t = rq_id c /\ tlp_check t = Ok true.
