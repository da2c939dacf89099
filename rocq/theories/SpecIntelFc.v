(** Vocabulary for the transmit flow control outputs of the Intel device models. *)
From Verif Require Import Base ModelTlp ModelDllp ModelPort SpecPort.

(** What the user logic sees of a pool: headers or data ([k]) of a class *)
Definition s10_shown (k : bool) (ty : fc_type) (v : per3 (Z * option Z)) : option Z := if k then snd (get3 ty v) else Some (fst (get3 ty v)).
(** P-Tile: the index of a pool; bit 2 is set for data *)
Definition tdm (k : bool) (ty : fc_type) : Z := (if k then 4 else 0) + match ty with FC_P => 0 | FC_NP => 1 | FC_CPL => 2 end.
(** Width of the counters *)
Definition wide (k : bool) : Z := if k then 16 else 12.
(** The credits of the TLPs that side [s] has sent, as a user logic counts them *)
Definition sent (k : bool) (ty : fc_type) (s : bool) (st : sys) : Z := sum_credits k ty (gated s (s_log st)).
(** What is left of a credit limit *)
Definition left_of (v : Z) (k : bool) (ty : fc_type) (s : bool) (st : sys) : Z := (v - sent k ty s st) mod 2 ^ wide k.
