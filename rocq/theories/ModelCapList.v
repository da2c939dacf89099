(** core/caps/common.py: capabilities and lists of them.

    Objects have an identity (a number); the state of an object is looked up in a heap.  [in] and
    [list.remove] compare identities, as Python does for these classes. *)
From Verif Require Import Base ModelUtils ModelAttrs ModelCaps.

(** The classes; [KUser] is a class written by the user, with any register access methods that only
    use their own object; [ext]: derived from [PciExtCap]. *)
Inductive kind :=
| KPm | KPcie | KPcieExt | KMsi | KMsix | KAer
| KUser (ext : bool) (rd : attrs -> Z -> option Z) (wr : Z -> Z -> Z -> attrs -> attrs).
(** caps/common.py:102-110; [c_off] is [None] before the first registration. *)
Record cap := mkCap { c_kind : kind; c_id : Z; c_ver : Z; c_len : Z; c_off : option Z; c_next : Z; c_attr : attrs }.
Definition c_set_off (o : option Z) (c : cap) : cap :=
  mkCap (c_kind c) (c_id c) (c_ver c) (c_len c) o (c_next c) (c_attr c).
Definition c_set_next (n : Z) (c : cap) : cap :=
  mkCap (c_kind c) (c_id c) (c_ver c) (c_len c) (c_off c) n (c_attr c).
Definition c_set_attr (a : attrs) (c : cap) : cap :=
  mkCap (c_kind c) (c_id c) (c_ver c) (c_len c) (c_off c) (c_next c) a.
(** [c.offset] of a capability in the list, which is never [None]. *)
Definition off (c : cap) : Z := match c_off c with Some o => o | None => 0 end.

(** The constructors of the classes: caps/pm.py:30-34, caps/pcie.py:32-36 and 595-600,
    caps/msi.py:34-37 and 180-183, caps/aer.py:30-34. *)
Definition pm_cap_new : cap := mkCap KPm 0x01 0 2 None 0 pmc_init.
Definition pcie_cap_new : cap := mkCap KPcie 0x10 0 15 None 0 pec_init.
Definition pcie_ext_cap_new : cap := mkCap KPcieExt 0x19 1 4 None 0 pxc_init.
Definition msi_cap_new : cap := mkCap KMsi 0x05 0 6 None 0 msc_init.
Definition msix_cap_new : cap := mkCap KMsix 0x11 0 3 None 0 mxc_init.
Definition aer_cap_new : cap := mkCap KAer 0x01 2 11 None 0 aec_init.

Definition is_ext (k : kind) : bool :=
  match k with KPcieExt | KAer => true | KUser e _ _ => e | _ => false end.
(** [_read_register] and [_write_register] *)
Definition kind_read (k : kind) (s : attrs) (reg : Z) : option Z :=
  match k with
  | KPm => pmc_read s reg | KPcie => pec_read s reg | KPcieExt => pxc_read s reg
  | KMsi => msc_read s reg | KMsix => mxc_read s reg | KAer => aec_read s reg
  | KUser _ rd _ => rd s reg
  end.
Definition kind_write (k : kind) (reg data mask : Z) (s : attrs) : attrs :=
  match k with
  | KPm => pmc_write reg data mask s | KPcie => pec_write reg data mask s | KPcieExt => pxc_write reg data mask s
  | KMsi => msc_write reg data mask s | KMsix => mxc_write reg data mask s | KAer => aec_write reg data mask s
  | KUser _ _ wr => wr reg data mask s
  end.
(** caps/common.py:112-116 and 138-141.  [None & 0xffff0000] raises. *)
Definition cap_read (c : cap) (reg : Z) : res (option Z) :=
  if is_ext (c_kind c) then
    if reg =? 0 then
      Ok (Some (Z.lor (Z.lor (Z.shiftl (Z.land (c_next c) 0xfff) 20) (Z.shiftl (Z.land (c_ver c) 0xf) 16)) (Z.land (c_id c) 0xffff)))
    else Ok (kind_read (c_kind c) (c_attr c) reg)
  else
    let val := kind_read (c_kind c) (c_attr c) reg in
    if reg =? 0 then
      match val with
      | Some v => Ok (Some (Z.lor (Z.lor (Z.land v 0xffff0000) (Z.shiftl (Z.land (c_next c) 0xff) 8)) (Z.land (c_id c) 0xff)))
      | None => Err TypeError
      end
    else Ok val.
(** caps/common.py:118-119 *)
Definition cap_write (reg data mask : Z) (c : cap) : cap :=
  c_set_attr (kind_write (c_kind c) reg data mask (c_attr c)) c.

Definition heap := nat -> cap.
Definition hset (i : nat) (c : cap) (h : heap) : heap := fun x => if Nat.eqb x i then c else h x.

(** caps/common.py:151-155 *)
Definition find_by_id (h : heap) (l : list nat) (id : Z) : option nat := find (fun i => c_id (h i) =? id) l.
(** caps/common.py:157-161 *)
Definition find_by_reg (h : heap) (l : list nat) (reg : Z) : option nat :=
  find (fun i => (off (h i) <=? reg) && (reg <? off (h i) + c_len (h i))) l.
(** caps/common.py:163-167 *)
Definition caps_read (h : heap) (l : list nat) (reg : Z) : res (option Z) :=
  match find_by_reg h l reg with
  | Some i => cap_read (h i) (reg - off (h i))
  | None => Ok (Some 0)
  end.
(** caps/common.py:169-172 *)
Definition caps_write (reg data mask : Z) (l : list nat) (h : heap) : heap :=
  match find_by_reg h l reg with
  | Some i => hset i (cap_write (reg - off (h i)) data mask (h i)) h
  | None => h
  end.

(** [list.remove]: the first occurrence. *)
Fixpoint remove1 (i : nat) (l : list nat) : list nat :=
  match l with [] => [] | j :: r => if Nat.eqb j i then r else j :: remove1 i r end.
(** [list.sort(key=offset)], which is stable. *)
Fixpoint insert (h : heap) (i : nat) (l : list nat) : list nat :=
  match l with
  | [] => [i]
  | j :: r => if off (h j) <=? off (h i) then j :: insert h i r else i :: l
  end.
Definition sort (h : heap) (l : list nat) : list nat := fold_left (fun a i => insert h i a) l [].
(** caps/common.py:221-224 *)
Fixpoint link (l : list nat) (h : heap) : heap :=
  match l with
  | i :: (j :: _) as r =>
    let h := hset i (c_set_next (off (h j) * 4) (h i)) h in
    let h := hset j (c_set_next 0 (h j)) h in
    link r h
  | _ => h
  end.
(** caps/common.py:217-224 *)
Definition build (l : list nat) (h : heap) : heap * list nat :=
  let l := sort h l in (link l h, l).

(** caps/common.py:197-200: the automatic position. *)
Definition auto_off (h : heap) (len : Z) (l : list nat) (start : Z) : Z :=
  fold_left (fun o i => if (off (h i) <? o + len - 1) && (o <=? off (h i) + c_len (h i) - 1)
                        then off (h i) + c_len (h i) else o) l start.
(** caps/common.py:180-204 without offset, for a capability without offset (or offset 0). *)
Definition register_auto (start : Z) (i : nat) (hl : heap * list nat) : heap * list nat :=
  let (h, l) := hl in
  let l := remove1 i l in
  let h := hset i (c_set_off (Some (auto_off h (c_len (h i)) l start)) (h i)) h in
  build (l ++ [i]) h.
(** caps/common.py:191-192 *)
Definition overlaps (c d : cap) : bool :=
  (off d <=? off c + c_len c - 1) && (off c <=? off d + c_len d - 1).
(** caps/common.py:174-209 for an object of the right class; the recursive calls (206-209) have no
    offset and so do not recur. *)
Definition register (start : Z) (i : nat) (o : option Z) (h : heap) (l : list nat) : heap * list nat :=
  let l := remove1 i l in
  let h := match o with Some _ => hset i (c_set_off o (h i)) h | None => h end in
  if match c_off (h i) with Some o => negb (o =? 0) | None => false end then
    let bump := filter (fun j => overlaps (h i) (h j)) l in
    let l := fold_left (fun l j => remove1 j l) bump l in
    fold_left (fun (hl : heap * list nat) j => let (h, l) := hl in register_auto start j (hset j (c_set_off None (h j)) h, l))
      bump (build (l ++ [i]) h)
  else register_auto start i (h, l).
(** caps/common.py:211-215 *)
Definition deregister (i : nat) (h : heap) (l : list nat) : heap * list nat := build (remove1 i l) h.
(** caps/common.py:145-149 and 228-232 *)
Definition caps_start (ext : bool) : Z := if ext then 0x40 else 0x10.
