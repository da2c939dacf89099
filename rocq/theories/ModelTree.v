(** A whole tree: where a TLP that comes down from the host ends.

    The pieces are those of ModelRoute.v; here they are put together along the tree.  Status bits that bridges set on the way (C44) are left
    out, nothing else of a bridge changes; what the function does with the TLP is elsewhere (ModelFunction.v, ModelCompleter.v). *)
From Verif Require Import Base ModelUtils ModelTlp ModelAttrs ModelCapList ModelConfig ModelFunction ModelRoute ModelEnum ModelAssign.

(** A function, whether it is a bridge, and the functions on its secondary bus in the order in which they are asked: the functions of the device
    on the link (core/device.py:127-132) or the ports of the switch (core/switch.py:166-191, core/rc.py:45-72 for the root ports) *)
Inductive net := Net (f : fnc) (br : bool) (l : list net).
Definition net_fn (z : net) : fnc := match z with Net f _ _ => f end.
Definition net_bars (br : bool) : Z := if br then 2 else 6.
(** core/device.py:127-132: [match_tlp]; core/switch.py:170-191 for a downstream port: or [match_tlp_secondary].  On a link with a switch
    at its other end nothing is asked, the upstream port gets every TLP; those it would not claim here it does not take there (core/bridge.py:349-383). *)
Definition net_claims (t : tlp) (z : net) : res bool :=
  match z with
  | Net f br _ => m <- match_tlp (net_bars br) f t ;; if m then Ok true else if br then match_secondary f t else Ok false
  end.
(** The first that claims gets it. *)
Definition first_claim (claims : net -> res bool) (take : net -> res (option (fnc * tlp))) : list net -> res (option (fnc * tlp)) :=
  fix go (l : list net) : res (option (fnc * tlp)) :=
    match l with
    | [] => Ok None
    | z :: r => c <- claims z ;; if c then take z else go r
    end.
(** core/bridge.py:323-383 and, for the functions of a device, core/device.py:117-163: the function that keeps the TLP, and the TLP as it gets there; [None] if it is released
    on the way. *)
Fixpoint reach (z : net) (t : tlp) : res (option (fnc * tlp)) :=
  match z with
  | Net f true l =>
    '(_, acts) <- br_upstream_recv t f ;;
    match acts with
    | [Own t] => Ok (Some (f, t))
    | [Fwd Down t] => first_claim (net_claims t) (fun z => reach z t) l
    | _ => Ok None
    end
  | Net f false _ => m <- match_tlp 6 f t ;; Ok (if m then Some (f, t) else None)
  end.

(** ** The registers as the host leaves them *)
(** core/pci.py:1184, 1221-1222, 1249, 1275: the dwords of an allocation, from its register on *)
Fixpoint write_dws (wr : Z -> Z -> Z -> fnc -> fnc) (reg : Z) (l : list Z) (f : fnc) : fnc :=
  match l with [] => f | d :: r => write_dws wr (reg + 1) r (wr reg d 15 f) end.
Definition write_allocs (wr : Z -> Z -> Z -> fnc -> fnc) (own : list alloc) (f : fnc) : fnc :=
  fold_left (fun f a => write_dws wr (a_reg a / 4) (a_dws a) f) own f.
(** core/pci.py:1278-1297: two bytes to register 7 and dwords (two halfwords or one word) to the others; see SpecAssign.v [program] *)
Definition write_windows (r : bregs) (f : fnc) : fnc :=
  let two n v := Z.lor (fst v) (Z.shiftl (snd v) n) in
  br_write 11 (r_pref_limit_upper r) 15 (br_write 10 (r_pref_base_upper r) 15 (br_write 9 (two 16 (r_pref r)) 15
    (br_write 8 (two 16 (r_mem r)) 15 (br_write 12 (two 16 (r_io_upper r)) 15 (br_write 7 (two 8 (r_io r)) 3 f))))).
(** core/pci.py:225-229, the last write to register 6; [f] as it is then *)
Definition write_buses (pri sec sub : Z) (f : fnc) : fnc :=
  let old := match br_read f 6 with Ok (Some v) => v | _ => 0 end in
  br_write 6 (Z.lor (Z.lor (Z.lor (Z.land old 0xff000000) pri) (Z.shiftl sec 8)) (Z.shiftl sub 16)) 15 f.
(** A function after enumeration (core/pci.py:204-230) and assignment (232-258): the configuration writes have also told it its bus number
    [n] (core/function.py:552-554, 580-582). *)
Definition configure (n : Z) (x : hfn) (own : list alloc) (sub : option bregs) (f : fnc) : fnc :=
  let f := with_id (mkId n (device (f_id f)) (func (f_id f))) f in
  match sub with
  | None => write_allocs ep_write own f
  | Some r => write_windows r (write_allocs br_write own (write_buses (h_pri x) (h_sec x) (h_sub x) f))
  end.
Definition zip3 {A B C D} (g : A -> B -> C -> D) : list A -> list B -> list C -> list D :=
  fix go (l : list A) (k : list B) (l' : list C) : list D :=
    match l, k, l' with
    | a :: l, b :: k, c :: l' => g a b c :: go l k l'
    | _, _, _ => []
    end.
Fixpoint configure_net (n : Z) (y : hw) (a : adev) (z : net) : net :=
  match y, a, z with
  | Hw x l, ADev _ own sub, Net f br l' =>
    Net (configure n x own (match sub with Some (r, _) => Some r | None => None end) f) br
      (zip3 (configure_net (h_sec x)) l (match sub with Some (_, k) => k | None => [] end) l')
  end.
(** core/rc.py:867-895: the windows of the host bridge, set to the bases [l] and to the limits [l'] that the assignment ends with *)
Definition open_host (l l' : lims) (f : fnc) : fnc :=
  with_attr (fun s =>
    aset fn_io_base (l_io l) (aset fn_io_limit (l_io l')
    (aset fn_mem_base (l_mem l) (aset fn_mem_limit (l_mem l')
    (aset fn_prefetchable_mem_base (l_pref l) (aset fn_prefetchable_mem_limit (l_pref l') s)))))) f.
(** core/rc.py:867-895 with core/pci.py:204-258: the tree behind the host bridge [z], as enumeration (which ends with [h]) and assignment ([n], from [l] to [l']) leave it *)
Definition set_up (h : hw) (n : list adev) (l l' : lims) (z : net) : net :=
  match z with Net f br zs => Net (open_host l l' f) br (zip3 (configure_net (h_sec (hw_fn h))) (hw_below h) n zs) end.
