(** What the segmented streams of the Intel interfaces carry. *)
From Verif Require Import Base ModelUtils ModelTlp ModelFrames ModelIntel SpecTlp.

(** Segments of whole DWORDs, and the signals that are not optional. *)
Record good_icfg (c : in_cfg) : Prop := {
  gi_init : in_init_ok c = true;
  gi_segs : exists n, 1 <= n /\ 1 <= ig c /\ iw c = 32 * n * ig c;
  gi_has : has c SData = true /\ has c SSop = true /\ has c SEop = true /\ has c SValid = true;
  gi_hdr : dv c = PTile -> has c SHdr = true /\ has c SPrfx = true }.
(** The length field of a header: 0 stands for 1024. *)
Definition length_of (l : Z) : Z := if l =? 0 then 1024 else l.
(** DWORDs of a packet whose first DWORD is [d], PCI Express Base Specification section 2.2.1 *)
Definition packet_dwords (d : Z) : Z := (if field d 29 1 =? 1 then 4 else 3) + (if field d 30 1 =? 1 then length_of (field d 0 10) else 0).
(** Fields fit the signals there are, and the amount of data is that which the header announces. *)
Record good_iframe (c : in_cfg) (f : pt_frame) : Prop := {
  if_len : zlen (t_data f) = match dv c with
             | HTile => packet_dwords (hd 0 (t_data f))
             | PTile => if field (t_hdr f) 126 1 =? 1 then length_of (field (t_hdr f) 96 10) else 0
             end;
  if_data : Forall (fun d => 0 <= d < 2 ^ 32) (t_data f);
  if_par_len : length (t_parity f) = length (t_data f);
  if_par : has c SPar = true -> Forall (fun d => 0 <= d < 16) (t_parity f);
  if_bar : has c SBar = true -> 0 <= t_bar f < 8;
  if_err : has c SErr = true -> 0 <= t_err f < 2;
  if_func : has c SFunc = true -> 0 <= t_func f < match dv c with PTile => 8 | HTile => if ig c =? 1 then 4 else if ig c =? 2 then 2 else 1 end;
  if_vf : has c SVfn = true -> match t_vf f with Some v => 0 <= v < 2048 | None => True end;
  if_hdr : match dv c with
           | HTile => t_hdr f = 0 /\ t_prfx f = 0 /\ t_hdr_par f = 0 /\ t_prfx_par f = 0
           | PTile => 0 <= t_hdr f < 2 ^ 128 /\ 0 <= t_prfx f < 2 ^ 32 /\ (has c SHdrPar = true -> 0 <= t_hdr_par f < 2 ^ 16) /\ (has c SPrfxPar = true -> 0 <= t_prfx_par f < 16)
           end }.
(** The frame with what the bus carries: signals it does not have read as 0, [tlp_abort] is not carried. *)
Definition carried_iframe (c : in_cfg) (f : pt_frame) : pt_frame :=
  let kept (s : sig) (v : Z) := if has c s then v else 0 in
  mkPt (t_prfx f) (t_hdr f) (t_data f) (kept SPrfxPar (t_prfx_par f)) (kept SHdrPar (t_hdr_par f))
    (map (kept SPar) (t_parity f)) (kept SFunc (t_func f))
    (if has c SVfa then match t_vf f with Some v => Some (kept SVfn v) | None => None end else None)
    (kept SBar (t_bar f)) 0 (kept SErr (t_err f)).
(** A TLP with the payload it announces. *)
Record sendable (ty : tlp_type) (k : kind) (t : tlp) : Prop := {
  sd_fits : fits ty k t;
  sd_bytes : bytes_ok (data t);
  sd_len : zlen (data t) = if with_payload ty then 4 * tlen t else 0 }.
(** The frame [g] is what [t] becomes on the other side: it converts to what the type of [t] carries, and its parity is right where there are
    parity signals. *)
Definition arrived (c : in_cfg) (t : tlp) (g : pt_frame) : Prop :=
  (exists ty k, sendable ty k t /\ tlp_of_frame (dv c) g = Ok (on_wire ty k t)) /\
  (has c SPar = true -> t_parity g = data_parity (t_data g)) /\
  (dv c = PTile -> has c SPar = true -> has c SHdrPar = true -> has c SPrfxPar = true -> pt_check_parity g = Ok true).
