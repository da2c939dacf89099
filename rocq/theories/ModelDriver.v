(** core/pci.py:539-612, 758-809: what drivers do with a function: enabling, bus mastering, device control.  Configuration accesses are
    given by [cr] and [cw], as in ModelPci.v.  Log messages are left out. *)
From Verif Require Import Base ModelUtils ModelTags ModelConfig ModelHost ModelFunction ModelTlp ModelPci ModelPciCaps.

Section Function.
Context {S : Type} (cr : Z -> Z -> S -> res (S * list Z)) (cw : Z -> list Z -> S -> res S).
(** core/pci.py:565-574 *)
Definition enable_resources (s : S) : res S :=
  '(s, old_cmd) <- cfg_read_word cr 4 s ;;
  let cmd := Z.lor (Z.lor old_cmd (Z.shiftl 1 0)) (Z.shiftl 1 1) in
  if negb (cmd =? old_cmd) then cfg_write_word cw 4 cmd s else Ok s.
(** core/pci.py:584-594, the access *)
Definition write_master (enable : bool) (s : S) : res S :=
  '(s, old_cmd) <- cfg_read_word cr 4 s ;;
  let cmd := if enable then Z.lor old_cmd (Z.shiftl 1 2) else Z.land old_cmd (Z.lnot (Z.shiftl 1 2)) in
  if negb (cmd =? old_cmd) then cfg_write_word cw 4 cmd s else Ok s.

(** core/pci.py:514-519, 530-534, for one word *)
Definition cap_write_word (p : found) (k : cap_key) (addr v : Z) (s : S) : res S := d <- to_bytes 2 v ;; capability_write cw p k addr d s.
Definition cap_write_dword (p : found) (k : cap_key) (addr v : Z) (s : S) : res S := d <- to_bytes 4 v ;; capability_write cw p k addr d s.
(** core/pci.py:392-393, [PciCapId.EXP] is 0x10 *)
Definition EXP : cap_key := CapId 0x10.
Definition is_pcie (p : found) : bool := match get_capability_offset EXP p with Some o => negb (o =? 0) | None => false end.
(** core/pci.py:600-612 *)
Definition enable_crs (p : found) (s : S) : res S :=
  if negb (is_pcie p) then Ok s
  else
    '(s, root_cap) <- cap_read_dword cr p EXP 0x1e s ;;
    if zbool (Z.land root_cap 1) then
      '(s, old_ctrl) <- cap_read_word cr p EXP 0x1c s ;;
      let ctrl := Z.lor old_ctrl 0x0010 in
      if negb (ctrl =? old_ctrl) then cap_write_word p EXP 0x1c ctrl s else Ok s
    else Ok s.
(** core/pci.py:758-761 *)
Definition read_readrq (p : found) (s : S) : res (S * Z) :=
  '(s, devctl) <- cap_read_dword cr p EXP 8 s ;; Ok (s, Z.land (Z.shiftr devctl 12) 7).
(** core/pci.py:763-772 *)
Definition write_readrq (p : found) (readrq : Z) (s : S) : res S :=
  if (readrq <? 0) || (readrq >? 5) then Err ValueError
  else
    '(s, old_devctl) <- cap_read_dword cr p EXP 8 s ;;
    let devctl := Z.lor (Z.land old_devctl (Z.lnot 0x7000)) (Z.shiftl readrq 12) in
    if negb (devctl =? old_devctl) then cap_write_dword p EXP 8 devctl s else Ok s.
(** core/pci.py:774-777 *)
Definition read_mps (p : found) (s : S) : res (S * Z) :=
  '(s, devctl) <- cap_read_dword cr p EXP 8 s ;; Ok (s, Z.land (Z.shiftr devctl 5) 7).
(** core/pci.py:779-788; [mpss]: [pcie_mpss] *)
Definition write_mps (p : found) (mpss mps : Z) (s : S) : res S :=
  if (mps <? 0) || (mps >? 5) || (mps >? mpss) then Err ValueError
  else
    '(s, old_devctl) <- cap_read_dword cr p EXP 8 s ;;
    let devctl := Z.lor (Z.land old_devctl (Z.lnot 0x00e0)) (Z.shiftl mps 5) in
    if negb (devctl =? old_devctl) then cap_write_dword p EXP 8 devctl s else Ok s.
(** core/pci.py:790-801; [devcap]: [pcie_devcap_reg] *)
Definition configure_extended_tags (p : found) (devcap : Z) (s : S) : res S :=
  if negb (is_pcie p) then Ok s
  else if negb (zbool (Z.land devcap (Z.shiftl 1 5))) then Ok s
  else
    '(s, devctl) <- cap_read_dword cr p EXP 8 s ;;
    if negb (zbool (Z.land devctl (Z.shiftl 1 8))) then cap_write_dword p EXP 8 (Z.lor devctl (Z.shiftl 1 8)) s else Ok s.
(** core/pci.py:803-809 *)
Definition configure_serr (header_type : Z) (s : S) : res S :=
  if negb (header_type =? 1) then Ok s
  else
    '(s, bridge_ctrl) <- cfg_read_word cr 0x3e s ;;
    if negb (zbool (Z.land bridge_ctrl 2)) then cfg_write_word cw 0x3e (Z.lor bridge_ctrl 2) s else Ok s.
End Function.

(** ** The devices of a tree, named by numbers.  [v_cnt], [v_bm]: the attributes [enable_cnt] and [is_busmaster]. *)
Record drv (S : Type) := mkDrv { v_cnt : nat -> Z; v_bm : nat -> bool; v_sys : S }.
Arguments mkDrv {S}. Arguments v_cnt {S}. Arguments v_bm {S}. Arguments v_sys {S}.
Section Tree.
Context {S : Type} (cr : nat -> Z -> Z -> S -> res (S * list Z)) (cw : nat -> Z -> list Z -> S -> res S).
Definition put_cnt (k : nat) (n : Z) (d : drv S) : drv S := mkDrv (nset k n (v_cnt d)) (v_bm d) (v_sys d).
Definition put_sys (s : S) (d : drv S) : drv S := mkDrv (v_cnt d) (v_bm d) s.
(** core/pci.py:386-387 *)
Definition is_enabled (k : nat) (d : drv S) : bool := v_cnt d k >? 0.
(** core/pci.py:584-598 *)
Definition set_master (enable : bool) (k : nat) (d : drv S) : res (drv S) :=
  s <- write_master (cr k) (cw k) enable (v_sys d) ;; Ok (mkDrv (v_cnt d) (nset k enable (v_bm d)) s).
(** core/pci.py:552-563; [up]: [enable_bridge] of the bridge above, if there is one *)
Definition enable_device (up : drv S -> res (drv S)) (k : nat) (d : drv S) : res (drv S) :=
  let d := put_cnt k (v_cnt d k + 1) d in
  if v_cnt d k >? 1 then Ok d
  else
    d <- up d ;;
    s <- enable_resources (cr k) (cw k) (v_sys d) ;;
    Ok (put_sys s d).
(** core/pci.py:539-550 for the bridge at the head of the path, followed by those above it (401-404).  Line 546 calls [set_master]
    without waiting for it: a coroutine object that never runs. *)
Fixpoint enable_bridge (path : list nat) (d : drv S) : res (drv S) :=
  match path with
  | [] => Ok d
  | k :: above =>
    d <- enable_bridge above d ;;
    if is_enabled k d then Ok d
    else
      d <- enable_device (enable_bridge above) k d ;;
      set_master true k d
  end.
(** core/pci.py:576-582 *)
Definition disable_device (k : nat) (d : drv S) : res (drv S) :=
  let d := put_cnt k (v_cnt d k - 1) d in
  if v_cnt d k >? 0 then Ok d else set_master false k d.

(** Calls of the drivers, in any order.  [Config]: a configuration write of another kind. *)
Inductive dop := Enable (k : nat) | Disable (k : nat) | Master (b : bool) (k : nat) | Config (k : nat) (addr : Z) (data : list Z).
Context (above : nat -> list nat).
Definition dstep (d : drv S) (o : dop) : res (drv S) :=
  match o with
  | Enable k => enable_device (enable_bridge (above k)) k d
  | Disable k => disable_device k d
  | Master b k => set_master b k d
  | Config k addr data => s <- cw k addr data (v_sys d) ;; Ok (put_sys s d)
  end.
Fixpoint drun (ops : list dop) (d : drv S) : res (drv S) :=
  match ops with [] => Ok d | o :: ops => d <- dstep d o ;; drun ops d end.
End Tree.

(** The functions of a tree: each with its kind of configuration space, the tags and the CRS setting of the accesses, and its identifier;
    routing to the function is that of C29, C30 and C32. *)
Record node := mkNode { n_rd : fnc -> Z -> res (option Z); n_wr : Z -> Z -> Z -> fnc -> fnc; n_tg : Z -> Z; n_crs : option bool; n_id : pcie_id }.
Definition tree_read (nd : nat -> node) (k : nat) (addr n : Z) (F : nat -> fnc) : res ((nat -> fnc) * list Z) :=
  '(f, d) <- config_read (cfg_deliver (n_rd (nd k)) (n_wr (nd k)) (n_tg (nd k))) (n_crs (nd k)) (n_id (nd k)) addr n (F k) ;; Ok (nset k f F, d).
Definition tree_write (nd : nat -> node) (k : nat) (addr : Z) (data : list Z) (F : nat -> fnc) : res (nat -> fnc) :=
  f <- config_write (cfg_deliver (n_rd (nd k)) (n_wr (nd k)) (n_tg (nd k))) (n_id (nd k)) addr data (F k) ;; Ok (nset k f F).
