(** Vocabulary for interrupts. *)
From Verif Require Import Base ModelUtils ModelAttrs ModelCaps ModelCapList ModelConfig ModelTlp ModelMsi SpecConfig SpecHost.

(** Capability object [i] of kind [k] answers the first [n] registers at byte address [o]. *)
Definition placed (f : fnc) (o : Z) (k : kind) (n : Z) (i : nat) : Prop :=
  o = 4 * off (f_heap f i) /\ 16 <= off (f_heap f i) /\ c_kind (f_heap f i) = k /\
  forall r, 0 <= r < n -> owner f (off (f_heap f i) + r) = Some i.
(** A function as the host knows it: its MSI capability is object [m], its MSI-X capability object [x]. *)
Definition irq_function (d : mdev) (f : fnc) (m x : option nat) : Prop :=
  (exists ms, In (d_rd d, d_wr d, ms) cfg_kinds) /\ device (f_id f) = device (d_id d) /\ func (f_id f) = func (d_id d) /\
  match m with
  | Some i => placed f (d_co d MSI_ID) KMsi 4 i /\ 0 <= c_attr (f_heap f i) ms_msi_multiple_message_capable <= 5 /\
              0 <= c_attr (f_heap f i) ms_msi_message_address < 2 ^ 32
  | None => d_co d MSI_ID = 0
  end /\
  match x with Some i => placed f (d_co d MSIX_ID) KMsix 3 i | None => d_co d MSIX_ID = 0 end.
(** Number of entries of the MSI-X table (PCI 6.8.2.3). *)
Definition table_entries (s : attrs) : Z := s mx_msix_table_size mod 2048 + 1.
(** Where the table is. *)
Definition table_bar (s : attrs) : Z := s mx_msix_table_bar_indicator_register mod 8.
Definition table_start (s : attrs) : Z := (s mx_msix_table_offset mod 2 ^ 32) / 8 * 8.
(** The MSI-X table of the function, if any, has a multiple of 32 entries. *)
Definition size32 (x : option nat) (f0 : fnc) : Prop := match x with Some i => table_entries (c_attr (f_heap f0 i)) mod 32 = 0 | None => True end.
(** The event of [v] belongs to entry [k] of function [i] only. *)
Definition own_event (y : msys) (i k : nat) (v : vec) : Prop :=
  nth_error (q_vectors (y_irq y i)) k = Some v /\
  forall i' k' w, nth_error (q_vectors (y_irq y i')) k' = Some w -> (i', k') <> (i, k) -> v_obj w <> v_obj v.
(** How many vectors a driver that wants [mn] to [mx] gets from a capability with [k] of them, if any. *)
Definition granted (mn mx k : Z) : option Z := if k <? mn then None else Some (Z.min mx k).
(** What the function offers: the number of entries of the MSI-X table, the number of MSI messages. *)
Definition msix_offer (mn mx : Z) (x : option nat) (f : fnc) : option Z :=
  match x with Some j => granted mn mx (table_entries (c_attr (f_heap f j))) | None => None end.
Definition msi_offer (mn mx : Z) (m : option nat) (f : fnc) : option Z :=
  match m with Some j => granted mn mx (2 ^ c_attr (f_heap f j) ms_msi_multiple_message_capable) | None => None end.
