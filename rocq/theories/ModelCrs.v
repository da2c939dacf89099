(** Waiting for a function that answers configuration requests with CRS ("configuration request retry status"). *)
From Verif Require Import Base ModelUtils ModelTlp ModelHost ModelPci.

Section Crs.
Context {S : Type} (op : S -> tlp -> res (S * list tlp)) (crs : option bool) (wait : Z -> S -> S).
(** [op]: a request and its completions (ModelHost.v); [wait n]: what happens during [n] microseconds. *)
Definition vendor_dword (dev : pcie_id) (s : S) : res (S * Z) := cfg_read_dword (fun addr n s => config_read op crs dev addr n s) 0 s.
(** core/pci.py:127-138 *)
Fixpoint wait_loop (fuel : nat) (dev : pcie_id) (delay val : Z) (s : S) : res (S * bool) :=
  match fuel with
  | O => Ok (s, false)
  | Datatypes.S fuel =>
    if val =? 0xffff0001 then
      if 10000 <? delay then Ok (s, false)
      else '(s, val) <- vendor_dword dev (wait delay s) ;; wait_loop fuel dev (delay * 2) val s
    else Ok (s, true)
  end.
(** core/pci.py:124-143; the eleventh delay is more than 10000. *)
Definition wait_crs (dev : pcie_id) (s : S) : res (S * bool) := wait_loop 11 dev 10 0xffff0001 s.
(** core/pci.py:157-165: is there a device? *)
Definition probe (dev : pcie_id) (s : S) : res (S * bool) :=
  '(s, val) <- vendor_dword dev s ;;
  if (val =? 0) || (val =? 0xffffffff) || (val =? 0xffff0000) || (val =? 0x0000ffff) then Ok (s, false)
  else if val =? 0xffff0001 then wait_crs dev s
  else Ok (s, true).
(** core/pci.py:172-182: vendor and device of a function that is found *)
Definition probe_fn (dev : pcie_id) (s : S) : res (S * option (Z * Z)) :=
  '(s, val) <- vendor_dword dev s ;;
  Ok (s, if val =? 0xffffffff then None else Some (Z.land val 0xffff, Z.land (Z.shiftr val 16) 0xffff)).
End Crs.
