(** Configuration accesses of the host in a tree at any time, in particular while it assigns the bus numbers: a request on its way down, the function that answers, and the completion
    on its way back, in one pass.  Status bits of the bridges on the way (C44) are left out. *)
From Verif Require Import Base ModelUtils ModelTlp ModelAttrs ModelCapList ModelConfig ModelFunction ModelRoute ModelTree ModelTreeUp ModelTreeCfg.

(** core/switch.py:170-191, core/device.py:127-132: the first that claims the request gets it; its position, all of them then, and the completions that it sends up *)
Definition first_asked (claims : net -> res bool) (take : net -> res (net * list tlp)) : list net -> res (nat * list net * list tlp) :=
  fix go (l : list net) : res (nat * list net * list tlp) :=
    match l with
    | [] => Ok (O, [], [])
    | z :: r =>
      c <- claims z ;;
      if c then '(z, cs) <- take z ;; Ok (O, z :: r, cs)
      else '(k, r, cs) <- go r ;; Ok (S k, z :: r, cs)
    end.
(** The completions that pass *)
Fixpoint ascend (pass : tlp -> res passage) (cs : list tlp) : res (list tlp) :=
  match cs with
  | [] => Ok []
  | c :: cs => o <- pass c ;; r <- ascend pass cs ;; Ok (match o with Passes c => c :: r | _ => r end)
  end.
(** core/bridge.py:323-383, 397-448, core/switch.py:164-225, core/device.py:117-163 with core/function.py:547-600: [z] gets the request [t] from above.  The tree then, and what comes back.
    [sw]: the secondary bus of [z] is inside a switch, as in ModelTreeUp.v.  The completion with status UR for a request that ends nowhere is left out, for core/rc.py:582-598 it is the same as none;
    so is the bus number that a device tells all its functions (core/device.py:122-125): each gets it with the first request for itself. *)
Fixpoint ask (sw root : bool) (z : net) (t : tlp) : res (net * list tlp) :=
  match z with
  | Net f true l =>
    '(_, acts) <- br_upstream_recv t f ;;
    match acts with
    | [Own t] => '(g, c) <- cfg_answer true t f ;; Ok (Net g true l, [c])
    | [Fwd Down t] =>
      '(k, l, cs) <- first_asked (net_claims t) (fun z => ask (negb sw) false z t) l ;;
      cs <- ascend (fun c => if sw then switched root f k l c else through root c f) cs ;;
      Ok (Net f true l, cs)
    | _ => Ok (z, [])
    end
  | Net f false l =>
    m <- match_tlp 6 f t ;;
    if m then '(g, c) <- cfg_answer false t f ;; Ok (Net g false l, [c]) else Ok (z, [])
  end.
(** core/rc.py:203-206, 267-300: one request of the host, [z] is the host bridge with everything behind it; [tg] chooses the tag. *)
Definition cfg_ask (tg : Z -> Z) (z : net) (t : tlp) : res (net * list tlp) := ask true true z (set_tag (tg (address t)) t).
