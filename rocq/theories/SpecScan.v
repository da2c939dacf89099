(** Where bus numbers lead in a tree, and when a tree of functions is one of those that enumeration (ModelEnum.v) is about. *)
From Verif Require Import Base ModelUtils ModelCapList ModelConfig ModelEnum ModelTree ModelTreeCfg SpecRoute SpecHost SpecTree SpecTreeCfg.

(** The function with number b:d.f for a bridge: on its secondary bus [b] the one with these numbers; else behind the first bridge whose buses include [b]. *)
Definition sits (d f : Z) (z : net) : bool := (device (f_id (net_fn z)) =? d) && (func (f_id (net_fn z)) =? f).
Definition covers (b : Z) (z : net) : bool := net_br z && (fst (bus_range (net_fn z)) <=? b) && (b <=? snd (bus_range (net_fn z))).
Fixpoint leads (b d f : Z) (z : net) : option (fnc * bool) :=
  match z with
  | Net g _ l =>
    (fix go (l : list net) : option (fnc * bool) :=
       match l with
       | [] => None
       | c :: r =>
         if b =? fst (bus_range g) then if sits d f c then Some (net_fn c, net_br c) else go r
         else if covers b c then leads b d f c else go r
       end) l
  end.
(** ... and the tree with [g'] in its place *)
Fixpoint instead (g' : fnc) (b d f : Z) (z : net) : net :=
  match z with
  | Net g br l =>
    Net g br ((fix go (l : list net) : list net :=
       match l with
       | [] => []
       | c :: r =>
         if b =? fst (bus_range g) then if sits d f c then match c with Net _ br k => Net g' br k end :: r else c :: go r
         else if covers b c then instead g' b d f c :: r else c :: go r
       end) l)
  end.
(** Every bridge behind the host bridge that has any buses has been told its own number (with the write of its bus numbers at the latest), so that it does not take itself for the host. *)
Definition awake (z : net) : Prop := forall g, In (g, 2) (below z) -> f_id g = mkId 0 0 0 -> snd (bus_range g) <= 0.
(** The host bridge with what is behind it, at any time during enumeration or after it *)
Definition at_host (z : net) : Prop := exists f l, z = Net f true l /\ bus_range f = (0, 255) /\ awake z.

(** What ModelEnum.v has of a function: numbers, class, register 0, header type, bus numbers *)
Definition looks (x : hfn) (f : fnc) (br : bool) : Prop :=
  device (f_id f) = h_d x /\ func (f_id f) = h_f x /\ br = is_bridge x /\
  cfg_rd br f 0 = Ok (Some (h_id x)) /\ 0 <= h_id x < 2 ^ 32 /\
  cfg_byte (cfg_rd br) f 14 = Some (h_type x + if h_multi x then 128 else 0) /\ 0 <= h_type x < 128 /\
  (br = true -> f_attr f fn_pri_bus_num = h_pri x /\ bus_range f = (h_sec x, h_sub x)).
Inductive shows : hw -> net -> Prop := Shows x l f br l' : looks x f br -> Forall2 shows l l' -> shows (Hw x l) (Net f br l').
(** The whole: [h] has bus 0 behind its root. *)
Definition pictured (h : hw) (z : net) : Prop := at_host z /\ h_sec (hw_fn h) = 0 /\ exists f l, z = Net f true l /\ Forall2 shows (hw_below h) l.
