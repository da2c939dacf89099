(** Frames of the vendor interfaces and their parity. *)
From Verif Require Import Base ModelUtils.

(** xilinx/us/interface.py:32-43, intel/s10/interface.py:63-74, intel/ptile/interface.py:63-74 [dword_parity] *)
Definition dword_parity (d : Z) : Z :=
  let d := Z.lxor d (Z.shiftr d 4) in
  let d := Z.lxor d (Z.shiftr d 2) in
  let d := Z.lxor d (Z.shiftr d 1) in
  let p := Z.land d 1 in
  let p := if zbool (Z.land d 0x100) then Z.lor p 2 else p in
  let p := if zbool (Z.land d 0x10000) then Z.lor p 4 else p in
  if zbool (Z.land d 0x1000000) then Z.lor p 8 else p.
(** intel/s10/interface.py:82-88, intel/ptile/interface.py:82-88: the loop of [parity] *)
Fixpoint parity_loop (fuel : nat) (d b p : Z) : res Z :=
  match fuel with
  | O => Err OutOfFuel
  | S f => if zbool d then parity_loop f (Z.shiftr d 8) (Z.shiftl b 1) (if zbool (Z.land d 1) then Z.lor p b else p) else Ok p
  end.
(** intel/s10/interface.py:77-88, intel/ptile/interface.py:77-88 [parity] *)
Definition parity (d : Z) : res Z :=
  let d := Z.lxor d (Z.shiftr d 4) in
  let d := Z.lxor d (Z.shiftr d 2) in
  let d := Z.lxor d (Z.shiftr d 1) in
  parity_loop (S (S (Z.to_nat (Z.log2 d)))) d 1 0.

(** [==] on lists of integers *)
Fixpoint zlist_eqb (a b : list Z) : bool :=
  match a, b with
  | [], [] => true
  | x :: a, y :: b => (x =? y) && zlist_eqb a b
  | _, _ => false
  end.
(** [[dword_parity(d) ^ 0xf for d in data]] *)
Definition data_parity (data : list Z) : list Z := map (fun d => Z.lxor (dword_parity d) 0xf) data.

(** xilinx/us/interface.py:46-65 [UsPcieFrame] *)
Record us_frame := mkUs {
  us_data : list Z; us_byte_en : list Z; us_parity : list Z; us_first_be : Z; us_last_be : Z; us_disc : bool; us_seq : Z }.
Definition us_frame0 : us_frame := mkUs [] [] [] 0 0 false 0.
(** xilinx/us/interface.py:67-71 *)
Definition us_update_parity (f : us_frame) : us_frame :=
  mkUs (us_data f) (us_byte_en f) (data_parity (us_data f)) (us_first_be f) (us_last_be f) (us_disc f) (us_seq f).
Definition us_check_parity (f : us_frame) : bool := zlist_eqb (us_parity f) (data_parity (us_data f)).

(** intel/s10/interface.py:91-117 [S10PcieFrame] ([vf_num] is [None] or a number) *)
Record s10_frame := mkS10 { s_data : list Z; s_parity : list Z; s_func : Z; s_vf : option Z; s_bar : Z; s_err : Z }.
(** intel/s10/interface.py:136-142 *)
Definition s10_update_parity (f : s10_frame) : s10_frame :=
  mkS10 (s_data f) (data_parity (s_data f)) (s_func f) (s_vf f) (s_bar f) (s_err f).
Definition s10_check_parity (f : s10_frame) : bool := zlist_eqb (s_parity f) (data_parity (s_data f)).

(** intel/ptile/interface.py:91-128 [PTilePcieFrame] *)
Record pt_frame := mkPt {
  t_prfx : Z; t_hdr : Z; t_data : list Z; t_prfx_par : Z; t_hdr_par : Z; t_parity : list Z;
  t_func : Z; t_vf : option Z; t_bar : Z; t_abort : Z; t_err : Z }.
(** intel/ptile/interface.py:143-146 *)
Definition pt_update_parity (f : pt_frame) : res pt_frame :=
  hp <- parity (t_hdr f) ;;
  Ok (mkPt (t_prfx f) (t_hdr f) (t_data f) (dword_parity (t_prfx f)) hp (data_parity (t_data f))
        (t_func f) (t_vf f) (t_bar f) (t_abort f) (t_err f)).
(** intel/ptile/interface.py:148-153; [and] does not look further than needed *)
Definition pt_check_parity (f : pt_frame) : res bool :=
  if zlist_eqb (t_parity f) (data_parity (t_data f)) then
    hp <- parity (t_hdr f) ;;
    Ok ((t_hdr_par f =? hp) && (t_prfx_par f =? dword_parity (t_prfx f)))
  else Ok false.
