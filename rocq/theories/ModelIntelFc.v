(** Transmit flow control outputs of the Intel device models. *)
From Verif Require Import Base ModelTlp ModelDllp ModelPort.

(** s10_model.py:770-794 [_run_tx_fc_logic], what is driven at a clock edge: (headers, data) of posted and non-posted requests and completions.  [None]: not driven (785-789, H-tile);
    every signal is taken to be connected. *)
Definition s10_fc (l_tile : bool) (c : chan) : per3 (Z * option Z) :=
  let hdr ty := Z.land (tx_credits_available (get3 ty (c_hdr c))) 0xff in
  let dat ty := Z.land (tx_credits_available (get3 ty (c_dat c))) 0xfff in
  mk3 (hdr FC_P, Some (dat FC_P)) (hdr FC_NP, if l_tile then Some (dat FC_NP) else None) (hdr FC_CPL, if l_tile then Some (dat FC_CPL) else None).
(** ptile_model.py:918-945 [_run_tx_fc_logic], clock cycle [n] since the coroutine started: [tx_cdts_limit] and [tx_cdts_limit_tdm_idx]. *)
Definition ptile_fc (n : nat) (c : chan) : Z * Z :=
  match (n mod 6)%nat with
  | 0%nat => (Z.land (tx_limit (get3 FC_P (c_hdr c))) 0xfff, 0)
  | 1%nat => (Z.land (tx_limit (get3 FC_NP (c_hdr c))) 0xfff, 1)
  | 2%nat => (Z.land (tx_limit (get3 FC_CPL (c_hdr c))) 0xfff, 2)
  | 3%nat => (Z.land (tx_limit (get3 FC_P (c_dat c))) 0xffff, 4)
  | 4%nat => (Z.land (tx_limit (get3 FC_NP (c_dat c))) 0xffff, 5)
  | _ => (Z.land (tx_limit (get3 FC_CPL (c_dat c))) 0xffff, 6)
  end.
