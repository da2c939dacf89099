(** A whole tree: where a TLP that a function sends ends. *)
From Verif Require Import Base ModelUtils ModelTlp ModelAttrs ModelCapList ModelConfig ModelFunction ModelRoute ModelTree.

(** It leaves the tree (or part of a tree) at the top, which is at the host for the whole tree (core/rc.py:70, 203-206); it ends at a function; or it is released. *)
Inductive passage := Passes (t : tlp) | Stops (f : fnc) (t : tlp) | Drops.
(** core/bridge.py:397-448: a bridge gets it on its secondary side. *)
Definition through (root : bool) (t : tlp) (f : fnc) : res passage :=
  '(_, acts) <- br_downstream_recv root t f ;;
  Ok (match acts with [Own t] => Stops f t | [Fwd Up t] => Passes t | _ => Drops end).
(** core/switch.py:166-168: the other ports *)
Definition all_but {A} (k : nat) (l : list A) : list A := firstn k l ++ skipn (S k) l.
(** core/switch.py:166-191: [t] comes from port [k] of the ports [l]; [f] is the upstream port, which is asked first. *)
Definition switched (root : bool) (f : fnc) (k : nat) (l : list net) (t : tlp) : res passage :=
  m <- match_tlp 2 f t ;;
  s <- (if m then Ok false else match_secondary f t) ;;
  if negb s then through root t f
  else
    o <- first_claim (net_claims t) (fun z => reach z t) (all_but k l) ;;
    Ok (match o with Some (g, t) => Stops g t | None => Drops end).
(** The function at the end of [p] sends [t].  Path [p] has the position on the secondary bus of every bridge on the way.  Bridges alternate on the way: one whose secondary bus
    is inside a switch ([sw]: the host bridge, upstream ports), one whose secondary bus is a link (root ports, downstream ports), which gets it from the link (core/bridge.py:488-509; core/device.py:157-163). *)
Fixpoint rise (sw root : bool) (z : net) (p : list nat) (t : tlp) : res passage :=
  match p with
  | [] => Ok (Passes t)
  | k :: p =>
    match z with
    | Net f _ l =>
      match nth_error l k with
      | None => Err PyException
      | Some c =>
        o <- rise (negb sw) false c p t ;;
        match o with
        | Passes t => if sw then switched root f k l t else through root t f
        | o => Ok o
        end
      end
    end
  end.
(** Below the host bridge [z] *)
Definition from_function (z : net) (p : list nat) (t : tlp) : res passage := rise true true z p t.
