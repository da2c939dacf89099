(** Vocabulary for functions that are not ready yet. *)
From Verif Require Import Base ModelUtils ModelTlp.

(** A configuration read of register 0 *)
Definition asks (dev : pcie_id) (t : tlp) : Prop := fmt_type t = Ok CFG_READ_1 /\ completer_id t = dev /\ address t = 0.
(** A function that answers with CRS before the time [r], and with the dword [v] from then on.  [now]: the time; a request takes no more than [acc]. *)
Record slow {S} (op : S -> tlp -> res (S * list tlp)) (wait : Z -> S -> S) (now : S -> Z) (dev : pcie_id) (r acc v : Z) : Prop := mkSlow {
  sl_wait : forall n s, now (wait n s) = now s + n;
  sl_value : 0 <= v < 2 ^ 32;
  sl_early : forall s t, asks dev t -> now s < r -> exists s' c, op s t = Ok (s', [c]) /\ status c = CRS /\ now s <= now s' <= now s + acc;
  sl_late : forall s t, asks dev t -> r <= now s -> exists s' c, op s t = Ok (s', [c]) /\ status c = SC /\ tlen c = 1 /\ data c = map (fun i => v / 2 ^ (8 * i) mod 256) [0; 1; 2; 3] /\ now s <= now s' <= now s + acc }.
(** Two functions that do the same, and may only answer differently *)
Definition same_effect {S} (op op' : S -> tlp -> res (S * list tlp)) : Prop := forall s t, exists s' a a', op s t = Ok (s', a) /\ op' s t = Ok (s', a').
