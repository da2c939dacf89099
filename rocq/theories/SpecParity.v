(** Parity of bytes. *)
From Verif Require Import Base ModelFrames.

(** The exclusive or of the bits of byte [k]. *)
Definition byte_parity (d k : Z) : bool := fold_right xorb false (map (fun i => Z.testbit d (8 * k + i)) [0; 1; 2; 3; 4; 5; 6; 7]).
(** [l] with the bits [e] of element [i] flipped. *)
Definition flip (i : nat) (e : Z) (l : list Z) : list Z := firstn i l ++ map (fun d => Z.lxor d e) (firstn 1 (skipn i l)) ++ skipn (S i) l.
(** A flip pattern that inverts an odd number of bits of a byte of a DWORD. *)
Definition odd_flip (e : Z) : Prop := exists k, 0 <= k < 4 /\ byte_parity e k = true.
Definition with_us (d p : list Z) (f : us_frame) : us_frame := mkUs d (us_byte_en f) p (us_first_be f) (us_last_be f) (us_disc f) (us_seq f).
Definition with_s10 (d p : list Z) (f : s10_frame) : s10_frame := mkS10 d p (s_func f) (s_vf f) (s_bar f) (s_err f).
Definition with_pt (x h : Z) (d : list Z) (xp hp : Z) (p : list Z) (f : pt_frame) : pt_frame :=
  mkPt x h d xp hp p (t_func f) (t_vf f) (t_bar f) (t_abort f) (t_err f).
