(** What the interrupt interfaces do (PG156, PG213: Configuration Interrupt Controller Interface; Stratix 10 Avalon-ST user guide: MSI Interrupts). *)
From Verif Require Import Base ModelUtils ModelTlp ModelAttrs ModelCapList ModelCaps ModelConfig ModelMsi ModelTlCfg ModelUsCfg ModelVendorInt
  SpecRegs SpecTlCfg.

(** ** The message *)
(** Address and data of message [n] as the host has set them up: the lowest bits of the data are the number, as many as the host has enabled. *)
Definition msi_word (f : cfn) (r : Z) : Z := reads0 (host_reads f InMs r).
Definition msi_message (f : cfn) (n : Z) (addr : Z) (bytes : list Z) : Prop :=
  let en := slice (msi_word f 0) 20 3 in
  addr = msi_word f 1 + 2 ^ 32 * msi_word f 2 /\ length bytes = 4%nat /\ Forall (fun b => 0 <= b < 256) bytes /\
  exists d, d = (if Z.testbit (msi_word f 0) 26 then msi_word f 3 else msi_word f 3 mod 2 ^ 16) /\ from_le bytes = d / 2 ^ en * 2 ^ en + n.
(** The counts fit their fields. *)
Record counts_ok (s : attrs) : Prop := { co_en : 0 <= s ms_msi_multiple_message_enable < 8; co_cap : 0 <= s ms_msi_multiple_message_capable < 8 }.
(** The function is allowed to send message [n]. *)
Definition msi_allowed (f : cfn) (n : Z) : Prop :=
  Z.testbit (msi_word f 0) 16 = true /\ 0 <= n < 2 ^ slice (msi_word f 0) 20 3 /\ n < 2 ^ slice (msi_word f 0) 17 3.

(** ** UltraScale *)
Inductive iev := IEdge (i : iin) | ISent | IOther (g : list cfn -> list cfn).
(** What the user logic sees at each edge: MSI sent, MSI-X sent.  [None]: not a possible sequence of events. *)
Fixpoint int_run (plus : bool) (l : list iev) (s : ist) : option (list (Z * Z) * ist) :=
  match l with
  | [] => Some ([], s)
  | IEdge i :: l => match int_run plus l (int_edge plus i s) with Some (t, s') => Some ((o_sent (i_out s), o_xsent (i_out s)) :: t, s') | None => None end
  | ISent :: l => match int_sent plus s with Some s => int_run plus l s | None => None end
  | IOther g :: l => int_run plus l (int_other g s)
  end.
(** The vector requested: exactly one bit is set. *)
Definition vector (v : Z) : option Z := find (fun n => v =? 2 ^ n) (map Z.of_nat (List.seq 0 32)).
(** While a message waits there are clock edges and accesses of others. *)
Inductive wev := WEdge (i : iin) | WOther (g : list cfn -> list cfn).
Definition wevent (w : wev) : iev := match w with WEdge i => IEdge i | WOther g => IOther g end.
Definition wedges (l : list wev) : nat := length (filter (fun w => match w with WEdge _ => true | _ => false end) l).
Definition wapply (l : list wev) (fs : list cfn) : list cfn := fold_left (fun fs w => match w with WEdge _ => fs | WOther g => g fs end) l fs.
(** Inputs taken at an edge, with the time an MSI and an MSI-X message take if there are any; accesses of others. *)
Inductive iseg := GOther (g : list cfn -> list cfn) | GSample (i : iin) (msi msix : option (list wev)).
Definition wait_events (o : option (list wev)) : list iev := match o with Some l => map wevent l ++ [ISent] | None => [] end.
Definition iseg_events (x : iseg) : list iev :=
  match x with GOther g => [IOther g] | GSample i a b => IEdge i :: wait_events a ++ wait_events b end.
Fixpoint change_nth (n : nat) (g : cfn -> cfn) (l : list cfn) : list cfn :=
  match l, n with [], _ => [] | f :: l, O => g f :: l | f :: l, S n => f :: change_nth n g l end.
Definition pending (i : iin) (fs : list cfn) : list cfn :=
  if i_pen i then change_nth (i_pfn i) (fun f => mkCfn (w_id f) (w_fn f) (w_pe f) (w_pm f) (aset ms_msi_pending_bits (i_pend i) (w_ms f)) (w_mx f) (w_ae f)) fs else fs.
(** The message of a request, if there is one: [Some None] means none is asked for, [None] that it cannot be sent. *)
Definition wanted (o : option (res (Z * list Z))) (i : iin) : option (option imsg) :=
  match o with None => Some None | Some (Ok (a, d)) => Some (Some (mkIm (i_fn i) (i_attr i) a d)) | Some (Err _) => None end.
Definition msi_of (i : iin) (fs : list cfn) : option (res (Z * list Z)) :=
  match vector (i_msi i), nth_error fs (i_fn i) with Some n, Some f => Some (issue_msi (w_ms f) n) | _, _ => None end.
Definition msix_of (i : iin) (fs : list cfn) : option (res (Z * list Z)) :=
  match nth_error fs (i_fn i) with Some f => if i_msix i then Some (issue_msix (w_mx f) (i_xaddr i) (i_xdata i)) else None | None => None end.
(** A message takes its time, no message takes none; the functions afterwards and the number of edges. *)
Definition timed (m : option imsg) (w : option (list wev)) (fs : list cfn) : option (list imsg * list cfn * nat) :=
  match m, w with
  | None, None => Some ([], fs, O)
  | Some m, Some l => Some ([m], wapply l fs, wedges l)
  | _, _ => None
  end.
(** Signals and messages of one sample: the edges before the MSI is sent still see the old MSI-X sent; those before the MSI-X is sent see the MSI sent. *)
Definition sample (i : iin) (a b : option (list wev)) (fs : list cfn) (sx : Z * Z) : option (list (Z * Z) * list imsg * list cfn * (Z * Z)) :=
  match wanted (msi_of i fs) i with
  | None => None
  | Some m =>
    match timed m a fs with
    | None => None
    | Some (l1, fs1, n1) =>
      let sent := zlen l1 in
      let fs2 := pending i fs1 in
      match wanted (msix_of i fs2) i with
      | None => None
      | Some mx =>
        match timed mx b fs2 with
        | None => None
        | Some (l2, fs3, n2) => Some (sx :: repeat (0, snd sx) n1 ++ repeat (sent, 0) n2, l1 ++ l2, fs3, (sent, zlen l2))
        end
      end
    end
  end.
Fixpoint isegs_do (l : list iseg) (fs : list cfn) (sx : Z * Z) : option (list (Z * Z) * list imsg * list cfn * (Z * Z)) :=
  match l with
  | [] => Some ([], [], fs, sx)
  | x :: l =>
    match match x with GOther g => Some ([], [], g fs, sx) | GSample i a b => sample i a b fs sx end with
    | None => None
    | Some (t1, m1, fs1, sx1) => match isegs_do l fs1 sx1 with Some (t2, m2, fs2, sx2) => Some (t1 ++ t2, m1 ++ m2, fs2, sx2) | None => None end
    end
  end.
(** Bits shown for the functions: bit [b] of register 0 of the capability, of the first [n] functions. *)
Definition shows_bits (n : nat) (x : source) (b : Z) (fs : list cfn) (v : Z) : Prop :=
  0 <= v < 2 ^ Z.of_nat n /\ forall k, (k < n)%nat ->
    Z.testbit v (Z.of_nat k) = match nth_error fs k with Some f => Z.testbit (reads0 (host_reads f x 0)) b | None => false end.
Definition shows_counts (n : nat) (fs : list cfn) (v : Z) : Prop :=
  0 <= v < 2 ^ (3 * Z.of_nat n) /\ forall k, (k < n)%nat ->
    slice v (3 * Z.of_nat k) 3 = match nth_error fs k with Some f => slice (msi_word f 0) 20 3 | None => 0 end.

(** [cfg_interrupt_msi_int] is 32 bits wide. *)
Definition wide (es : list iev) : Prop := Forall (fun e => match e with IEdge i => 0 <= i_msi i < 2 ^ 32 | _ => True end) es.
Definition seg_wide (x : iseg) : Prop := match x with GOther _ => True | GSample i _ _ => 0 <= i_msi i < 2 ^ 32 end.
(** The outputs after a sample: [fs] the functions at the edge, [fs1] when an MSI has been sent, [fs2] with the pending bits; [n]: functions with MSI-X outputs. *)
Record outputs_show (n : nat) (i : iin) (fs fs1 fs2 : list cfn) (o : iout) : Prop := {
  os_en : shows_bits 2 InMs 16 fs (o_en o);
  os_mm : shows_counts 2 fs1 (o_mm o);
  os_data : (forall f, In f fs1 -> msi_ok (w_ms f)) ->
    o_data o = if Nat.eqb (i_sel i) 15 then 0 else match nth_error fs1 (i_sel i) with Some f => msi_word f 4 | None => 0 end;
  os_xen : shows_bits n InMx 31 fs2 (o_xen o);
  os_xmask : shows_bits n InMx 30 fs2 (o_xmask o) }.
Definition after_wait (a : option (list wev)) (fs : list cfn) : list cfn := match a with Some w => wapply w fs | None => fs end.

(** Requests of one kind only ([true]: MSI-X), and its acknowledgements. *)
Definition kind_only (x : bool) (e : iev) : Prop := match e with IEdge i => if x then i_msi i = 0 else i_msix i = false | _ => True end.
Definition ack_of (x : bool) (p : Z * Z) : Z := if x then snd p else fst p.
Definition sum (l : list Z) : Z := fold_right Z.add 0 l.

(** ** Stratix 10 *)
Inductive sev := SEdge (i : sin) | SSent | SOther (g : list cfn -> list cfn).
Fixpoint s10_run (l : list sev) (s : sst) : option (list bool * sst) :=
  match l with
  | [] => Some ([], s)
  | SEdge i :: l => match s10_run l (s10_edge i s) with Some (t, s') => Some (a_ack s :: t, s') | None => None end
  | SSent :: l => match s10_sent s with Some s => s10_run l s | None => None end
  | SOther g :: l => s10_run l (s10_other g s)
  end.
(** A handshake: request, the time the message takes, the edge with the acknowledgement, edges until the request is withdrawn. *)
Inductive svev := VEdge (i : sin) | VOther (g : list cfn -> list cfn).
Definition svevent (w : svev) : sev := match w with VEdge i => SEdge i | VOther g => SOther g end.
Definition svedges (l : list svev) : nat := length (filter (fun w => match w with VEdge _ => true | _ => false end) l).
Definition svapply (l : list svev) (fs : list cfn) : list cfn := fold_left (fun fs w => match w with VEdge _ => fs | VOther g => g fs end) l fs.
(** [req] is high at all of the edges *)
Definition req_is (b : bool) (l : list svev) : Prop := Forall (fun w => match w with VEdge i => a_req i = b | _ => True end) l.
Inductive hseg := HQuiet (w : svev) | HMsg (i : sin) (w1 w2 : list svev) (z : sin).
Definition hseg_ok (x : hseg) : Prop :=
  match x with HQuiet w => req_is false [w] | HMsg i w1 w2 z => a_req i = true /\ req_is true w2 /\ a_req z = false end.
Definition hseg_events (x : hseg) : list sev :=
  match x with HQuiet w => [svevent w] | HMsg i w1 w2 z => SEdge i :: map svevent w1 ++ [SSent] ++ map svevent w2 ++ [SEdge z] end.
(** The acknowledgement is seen at one edge, the first one after the message is sent. *)
Definition hseg_do (x : hseg) (fs : list cfn) : option (list bool * list imsg * list cfn) :=
  match x with
  | HQuiet w => Some (repeat false (svedges [w]), [], svapply [w] fs)
  | HMsg i w1 w2 z =>
    match nth_error fs (a_fn i) with
    | None => None
    | Some f =>
      match issue_msi (w_ms f) (a_num i) with
      | Err _ => None
      | Ok (a, d) => Some (false :: repeat false (svedges w1) ++ true :: repeat false (svedges w2), [mkIm (a_fn i) (a_tc i) a d], svapply w2 (svapply w1 fs))
      end
    end
  end.
Fixpoint hsegs_do (l : list hseg) (fs : list cfn) : option (list bool * list imsg * list cfn) :=
  match l with
  | [] => Some ([], [], fs)
  | x :: l => match hseg_do x fs with
              | None => None
              | Some (t1, m1, fs1) => match hsegs_do l fs1 with Some (t2, m2, fs2) => Some (t1 ++ t2, m1 ++ m2, fs2) | None => None end
              end
  end.
