(** Configuration accesses of the host across a whole tree: core/rc.py:203-206, 563-646, the way down and the way back, and the function in between. *)
From Verif Require Import Base ModelUtils ModelTlp ModelAttrs ModelCapList ModelConfig ModelFunction ModelRoute ModelTree ModelTreeUp ModelFabric.

(** The tree after the function with number [i] has become [g] *)
Fixpoint put_fn (i : pcie_id) (g : fnc) (z : net) : net :=
  match z with Net f br l => Net (if id_eqb (f_id f) i then g else f) br (map (put_fn i g) l) end.
(** The function with number [i] is a bridge. *)
Fixpoint bridge_at (i : pcie_id) (z : net) : bool :=
  match z with Net f br l => (id_eqb (f_id f) i && br) || existsb (bridge_at i) l end.
(** core/endpoint.py:86-166, core/bridge.py:121-277: the registers of the two classes *)
Definition cfg_rd (br : bool) : fnc -> Z -> res (option Z) := if br then br_read else ep_read.
Definition cfg_wr (br : bool) : Z -> Z -> Z -> fnc -> fnc := if br then br_write else ep_write.
(** core/function.py:113-114, 447-461 *)
Definition cfg_answer (br : bool) (t : tlp) (g : fnc) : res (fnc * tlp) :=
  ty <- fmt_type t ;;
  match ty with
  | CFG_READ_0 => handle_config_0_read (cfg_rd br) t g
  | CFG_WRITE_0 => handle_config_0_write (cfg_wr br) t g
  | _ => Err PyException
  end.
(** One request of the host (core/rc.py:267-300) with the tag that it chooses for it: the tree then, and the completions that get to the host.  If the request ends nowhere, none does;
    the completion with status UR that the last bridge or device sends (C29, C30) is left out, for core/rc.py:582-598 it is the same.  That a device tells all its functions the bus number of the request
    (core/device.py:122-125) is left out, too: they have it already in a tree with the numbers of the host. *)
Definition cfg_request (tg : Z -> Z) (z : net) (t : tlp) : res (net * list tlp) :=
  o <- reach z (set_tag (tg (address t)) t) ;;
  match o with
  | None => Ok (z, [])
  | Some (g, t) =>
    '(g', c) <- cfg_answer (bridge_at (f_id g) z) t g ;;
    let z := put_fn (f_id g) g' z in
    cs <- back z (f_id g') id0 [c] ;;
    Ok (z, cs)
  end.
