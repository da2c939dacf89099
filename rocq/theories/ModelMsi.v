(** Message signalled interrupts: core/msi.py, the interrupt part of core/pci.py, the senders of core/caps/msi.py. *)
From Verif Require Import Base ModelUtils ModelTlp ModelRegion ModelCompleter ModelAttrs ModelCaps ModelCapList ModelConfig ModelFunction ModelHost ModelPci.

(** ** The host's region *)
(** core/msi.py:32-37.  [v_obj]: the identity of the object, and so of its event. *)
Record vec := mkVec { v_addr : Z; v_data : Z; v_obj : nat }.
(** core/msi.py:40-46.  The dictionary as a list of its assignments, the newest first. *)
Record msi_region := mkMsi { mr_limit : Z; mr_vectors : list vec }.
Definition msi_new : msi_region := mkMsi 0 [].
(** core/rc.py:123-125: place and size of the region. *)
Definition msi_base : Z := 0x80000000.
Definition msi_size : Z := 16.
(** core/msi.py:48-62; [vec.data] are distinct within a call, so their order in the dictionary does not matter. *)
Definition alloc_vectors (num : Z) (r : msi_region) : list vec * msi_region :=
  let n := Z.to_nat num in
  let vecs := map (fun k => mkVec msi_base (mr_limit r + Z.of_nat k) (length (mr_vectors r) + k)) (List.seq 0 n) in
  let limit := mr_limit r + Z.of_nat n in
  (vecs, mkMsi (limit + limit mod 32) (vecs ++ mr_vectors r)).
(** core/msi.py:67-78: the event that is set. *)
Definition msi_region_write (r : msi_region) (addr : Z) (d : list Z) : res nat :=
  _ <- py_assert (addr =? 0) ;;
  _ <- py_assert (zlen d =? 4) ;;
  match find (fun v => v_data v =? from_le d) (mr_vectors r) with
  | Some v => Ok (v_obj v)
  | None => Err AssertError
  end.
(** core/rc.py:495-551 for a request in the region: the events that are set.  A request elsewhere sets none.  The address space
    of cocotbext.axi hands each write to the region that contains it. *)
Fixpoint msi_writes (r : msi_region) (addr : Z) (d : list Z) (runs : list (Z * Z)) : res (list nat) :=
  match runs with
  | [] => Ok []
  | (s, e) :: l =>
    n <- msi_region_write r (addr + s - msi_base) (slice s e d) ;;
    ns <- msi_writes r addr d l ;;
    Ok (n :: ns)
  end.
Definition rc_msi_write (r : msi_region) (t : tlp) : res (list nat) :=
  if negb ((msi_base <=? address t) && (address t + tlen t * 4 <=? msi_base + msi_size)) then Ok []
  else if tlen t * 4 >? 0x1000 - Z.land (address t) 0xfff then Ok []
  else msi_writes r (address t) (data t) (write_runs t).

(** ** Senders *)
(** [struct.pack('<L', v)] *)
Definition pack_L (v : Z) : res (list Z) := if (0 <=? v) && (v <? 2 ^ 32) then Ok (le_bytes 4 v) else Err StructError.
(** core/caps/msi.py:163-175: the write that is made. *)
Definition issue_msi (s : attrs) (number : Z) : res (Z * list Z) :=
  if negb (zbool (s ms_msi_enable)) then Err PyException
  else if (number <? 0) || (2 ^ Z.min (s ms_msi_multiple_message_enable) (s ms_msi_multiple_message_capable) <=? number) then Err ValueError
  else
    let d := if zbool (s ms_msi_extended_message_data_capable) && zbool (s ms_msi_extended_message_data_enable)
             then s ms_msi_message_data else Z.land (s ms_msi_message_data) 0xffff in
    let d := Z.lor (Z.land d (Z.lnot (2 ^ s ms_msi_multiple_message_enable - 1))) number in
    b <- pack_L d ;; Ok (s ms_msi_message_address, b).
(** core/caps/msi.py:231-235 *)
Definition issue_msix (s : attrs) (addr d : Z) : res (Z * list Z) :=
  if negb (zbool (s mx_msix_enable)) then Err PyException else b <- pack_L d ;; Ok (addr, b).
(** [parent.mem_write] (core/region.py:112-144) and the arrival of its requests at the host. *)
Fixpoint arrive (r : msi_region) (ts : list tlp) : res (list nat) :=
  match ts with [] => Ok [] | t :: l => a <- rc_msi_write r t ;; b <- arrive r l ;; Ok (a ++ b) end.
Definition send_message (c : req_cfg) (r : msi_region) (m : res (Z * list Z)) : res (list nat) :=
  '(addr, d) <- m ;; ts <- mem_write c addr d ;; arrive r ts.

(** ** The host's driver functions, core/pci.py *)
(** core/pci.py:350-352: [msi_vectors], [msi_enabled], [msix_enabled] *)
Record irq := mkIrq { q_vectors : list vec; q_msi : bool; q_msix : bool }.
Definition irq0 : irq := mkIrq [] false false.
Definition MSI_ID : Z := 0x05.
Definition MSIX_ID : Z := 0x11.

Section Driver.
(** [co]: [get_capability_offset], 0 for [None]; [bw], [br]: [bar_window[i].write_dword], [read_dword]. *)
Context {S : Type} (cr : Z -> Z -> S -> res (S * list Z)) (cw : Z -> list Z -> S -> res S) (co : Z -> Z)
  (bw : Z -> Z -> Z -> S -> res S) (br : Z -> Z -> S -> res (S * Z)).
(** core/pci.py:473-537 *)
Definition cap_read_word (id addr : Z) (s : S) : res (S * Z) :=
  if zbool (co id) then cfg_read_word cr (addr + co id) s else Err PyException.
Definition cap_read_dword (id addr : Z) (s : S) : res (S * Z) :=
  if zbool (co id) then cfg_read_dword cr (addr + co id) s else Err PyException.
Definition cap_write_word (id addr v : Z) (s : S) : res S :=
  if zbool (co id) then cfg_write_word cw (addr + co id) v s else _ <- to_bytes 2 v ;; Err PyException.
Definition cap_write_dword (id addr v : Z) (s : S) : res S :=
  if zbool (co id) then cfg_write_dword cw (addr + co id) v s else _ <- to_bytes 4 v ;; Err PyException.
(** core/pci.py:828-836 and 932-940; [b] is the enable bit. *)
Definition set_enable (id b : Z) (enable : bool) (s : S) : res S :=
  '(s, old_ctrl) <- cap_read_word id 2 s ;;
  let ctrl := if enable then Z.lor old_ctrl b else Z.land old_ctrl (Z.lnot b) in
  if negb (ctrl =? old_ctrl) then cap_write_word id 2 ctrl s else Ok s.
Definition msi_set_enable (enable : bool) (q : irq) (s : S) : res (irq * S) :=
  s <- set_enable MSI_ID 0x0001 enable s ;; Ok (mkIrq (q_vectors q) enable (q_msix q), s).
Definition msix_set_enable (enable : bool) (q : irq) (s : S) : res (irq * S) :=
  s <- set_enable MSIX_ID 0x8000 enable s ;; Ok (mkIrq (q_vectors q) (q_msi q) enable, s).
(** core/pci.py:811-819, 919-923 *)
Definition init_capabilities (q : irq) (s : S) : res (irq * S) :=
  '(q, s) <- (if zbool (co MSI_ID) then msi_set_enable false q s else Ok (q, s)) ;;
  if zbool (co MSIX_ID) then msix_set_enable false q s else Ok (q, s).
(** core/pci.py:838-880 *)
Definition msi_capability_init (q : irq) (r : msi_region) (s : S) : res (irq * msi_region * S) :=
  '(q, s) <- msi_set_enable false q s ;;
  let q := mkIrq (q_vectors q) true (q_msix q) in
  let '(q, r) := match q_vectors q with
                 | [] => let '(v, r) := alloc_vectors 32 r in (mkIrq v (q_msi q) (q_msix q), r)
                 | _ => (q, r)
                 end in
  '(s, msg_ctrl) <- cap_read_dword MSI_ID 0 s ;;
  let msi_64bit := Z.land (Z.shiftr msg_ctrl 23) 1 in
  let msi_mmcap := Z.land (Z.shiftr msg_ctrl 17) 7 in
  match q_vectors q with
  | [] => Err IndexError
  | v :: _ =>
    s <- cap_write_dword MSI_ID 4 (Z.land (v_addr v) 0xfffffffc) s ;;
    s <- (if zbool msi_64bit then
            s <- cap_write_dword MSI_ID 8 (Z.land (Z.shiftr (v_addr v) 32) 0xffffffff) s ;;
            cap_write_dword MSI_ID 12 (v_data v) s
          else cap_write_dword MSI_ID 8 (v_data v) s) ;;
    let msg_ctrl := Z.lor msg_ctrl (Z.shiftl 1 16) in
    let msg_ctrl := Z.lor (Z.land msg_ctrl (Z.lnot (Z.shiftl 7 20))) (Z.shiftl msi_mmcap 20) in
    s <- cap_write_dword MSI_ID 0 msg_ctrl s ;;
    '(q, s) <- msi_set_enable true q s ;;
    Ok (q, r, s)
  end.
(** core/pci.py:821-826, 882-911.  [msi_capability_init] returns 0. *)
Definition enable_msi_range (mn mx : Z) (q : irq) (r : msi_region) (s : S) : res (irq * msi_region * S * Z) :=
  if negb (zbool (co MSI_ID)) then Ok (q, r, s, -1)
  else if q_msix q then Ok (q, r, s, -1)
  else if mx <? mn then Ok (q, r, s, -1)
  else if q_msi q then Ok (q, r, s, -1)
  else
    '(s, ctrl) <- cap_read_word MSI_ID 2 s ;;
    let nvec := Z.shiftl 1 (Z.land (Z.shiftr ctrl 1) 7) in
    if nvec <? mn then Ok (q, r, s, -1)
    else
      let nvec := if nvec >? mx then mx else nvec in
      '(q, r, s) <- msi_capability_init q r s ;;
      Ok (q, r, s, nvec).
(** core/pci.py:971-979: the entries from [k] on. *)
Fixpoint write_table (n : nat) (k bir toff : Z) (vs : list vec) (s : S) : res S :=
  match n with
  | O => Ok s
  | Datatypes.S n =>
    match vs with
    | [] => Err IndexError
    | v :: vs =>
      s <- bw bir (toff + k * 16 + 0) (Z.land (v_addr v) 0xfffffffc) s ;;
      s <- bw bir (toff + k * 16 + 4) (Z.land (Z.shiftr (v_addr v) 32) 0xffffffff) s ;;
      s <- bw bir (toff + k * 16 + 8) (Z.land (v_data v) 0xffffffff) s ;;
      s <- bw bir (toff + k * 16 + 12) 0 s ;;
      write_table n (k + 1) bir toff vs s
    end
  end.
(** core/pci.py:942-989 *)
Definition msix_capability_init (q : irq) (r : msi_region) (s : S) : res (irq * msi_region * S) :=
  '(q, s) <- msix_set_enable false q s ;;
  let q := mkIrq (q_vectors q) (q_msi q) true in
  '(s, msg_ctrl) <- cap_read_dword MSIX_ID 0 s ;;
  let table_size := Z.land (Z.shiftr msg_ctrl 16) 0x7ff + 1 in
  '(s, table_offset) <- cap_read_dword MSIX_ID 4 s ;;
  let table_bir := Z.land table_offset 7 in
  let table_offset := Z.land table_offset (Z.lnot 7) in
  '(s, pba_offset) <- cap_read_dword MSIX_ID 8 s ;;
  let '(q, r) := match q_vectors q with
                 | [] => let '(v, r) := alloc_vectors table_size r in (mkIrq v (q_msi q) (q_msix q), r)
                 | _ => (q, r)
                 end in
  s <- write_table (Z.to_nat table_size) 0 table_bir table_offset (q_vectors q) s ;;
  '(s, _) <- br table_bir table_offset s ;;
  let msg_ctrl := Z.lor msg_ctrl (Z.shiftl 1 31) in
  s <- cap_write_dword MSIX_ID 0 msg_ctrl s ;;
  '(q, s) <- msix_set_enable true q s ;;
  Ok (q, r, s).
(** core/pci.py:925-930, 991-1020 *)
Definition enable_msix_range (mn mx : Z) (q : irq) (r : msi_region) (s : S) : res (irq * msi_region * S * Z) :=
  if negb (zbool (co MSIX_ID)) then Ok (q, r, s, -1)
  else if q_msi q then Ok (q, r, s, -1)
  else if mx <? mn then Ok (q, r, s, -1)
  else if q_msix q then Ok (q, r, s, -1)
  else
    '(s, ctrl) <- cap_read_word MSIX_ID 2 s ;;
    let nvec := Z.land ctrl 0x7ff + 1 in
    if nvec <? mn then Ok (q, r, s, -1)
    else
      let nvec := if nvec >? mx then mx else nvec in
      '(q, r, s) <- msix_capability_init q r s ;;
      Ok (q, r, s, nvec).
(** core/pci.py:1028-1040 *)
Definition alloc_irq_vectors (mn mx : Z) (q : irq) (r : msi_region) (s : S) : res (irq * msi_region * S * Z) :=
  '(q, r, s, nvecs) <- enable_msix_range mn mx q r s ;;
  if 0 <? nvecs then Ok (q, r, s, nvecs) else enable_msi_range mn mx q r s.
(** core/pci.py:913-917, 1022-1026, 1042-1044 *)
Definition free_irq_vectors (q : irq) (s : S) : res (irq * S) :=
  '(q, s) <- (if q_msi q then msi_set_enable false q s else Ok (q, s)) ;;
  if q_msix q then msix_set_enable false q s else Ok (q, s).
End Driver.

(** ** A host with functions *)
(** What the host knows about a function, and how it is reached (as in ModelHost). *)
Record mdev := mkDev { d_rd : fnc -> Z -> res (option Z); d_wr : Z -> Z -> Z -> fnc -> fnc; d_tg : Z -> Z; d_crs : option bool;
  d_id : pcie_id; d_co : Z -> Z }.
(** The function, and the double words of its BARs that hold the MSI-X table (BAR, offset): the table belongs to the user's
    function, which is taken to be a memory. *)
Definition fstate : Type := fnc * (Z -> Z -> Z).
Definition d_cr (d : mdev) (addr n : Z) (s : fstate) : res (fstate * list Z) :=
  '(f, b) <- config_read (cfg_deliver (d_rd d) (d_wr d) (d_tg d)) (d_crs d) (d_id d) addr n (fst s) ;; Ok ((f, snd s), b).
Definition d_cw (d : mdev) (addr : Z) (b : list Z) (s : fstate) : res fstate :=
  f <- config_write (cfg_deliver (d_rd d) (d_wr d) (d_tg d)) (d_id d) addr b (fst s) ;; Ok (f, snd s).
Definition d_bw (bir o v : Z) (s : fstate) : res fstate :=
  Ok (fst s, fun b x => if (b =? bir) && (x =? o) then v else snd s b x).
Definition d_br (bir o : Z) (s : fstate) : res (fstate * Z) := Ok (s, snd s bir o).
Record msys := mkSys { y_region : msi_region; y_irq : nat -> irq; y_fn : nat -> fstate }.
Definition at_set {A} (i : nat) (x : A) (g : nat -> A) : nat -> A := fun j => if Nat.eqb j i then x else g j.
(** Calls of the driver of function [i]. *)
Inductive mop := MInit (i : nat) | MAlloc (i : nat) (mn mx : Z) | MFree (i : nat).
Definition mstep (dev : nat -> mdev) (o : mop) (y : msys) : res msys :=
  match o with
  | MInit i => '(q, s) <- init_capabilities (d_cr (dev i)) (d_cw (dev i)) (d_co (dev i)) (y_irq y i) (y_fn y i) ;;
      Ok (mkSys (y_region y) (at_set i q (y_irq y)) (at_set i s (y_fn y)))
  | MAlloc i mn mx => '(q, r, s, _) <- alloc_irq_vectors (d_cr (dev i)) (d_cw (dev i)) (d_co (dev i)) d_bw d_br mn mx (y_irq y i) (y_region y) (y_fn y i) ;;
      Ok (mkSys r (at_set i q (y_irq y)) (at_set i s (y_fn y)))
  | MFree i => '(q, s) <- free_irq_vectors (d_cr (dev i)) (d_cw (dev i)) (d_co (dev i)) (y_irq y i) (y_fn y i) ;;
      Ok (mkSys (y_region y) (at_set i q (y_irq y)) (at_set i s (y_fn y)))
  end.
Fixpoint mrun (dev : nat -> mdev) (ops : list mop) (y : msys) : res msys :=
  match ops with [] => Ok y | o :: l => y <- mstep dev o y ;; mrun dev l y end.
Definition msys0 (f0 : nat -> fstate) : msys := mkSys msi_new (fun _ => irq0) f0.
