(** What it means for a capability list to be consistent. *)
From Verif Require Import Base ModelUtils ModelAttrs ModelCaps ModelCapList.

(** The next pointers lead from each capability to the one after it; the last one is 0. *)
Fixpoint chained (h : heap) (l : list nat) : Prop :=
  match l with
  | [] => True
  | i :: r => match r with
              | [] => c_next (h i) = 0
              | j :: _ => c_next (h i) = off (h j) * 4 /\ chained h r
              end
  end.

(** The register ranges of any two capabilities in the list are disjoint. *)
Definition apart (c d : cap) : Prop := off c + c_len c <= off d \/ off d + c_len d <= off c.
Definition disjoint (h : heap) (l : list nat) : Prop :=
  forall i j, In i l -> In j l -> i <> j -> apart (h i) (h j).

(** No capability in the list starts at the last register of the range chosen for [i]. *)
Definition fits (start : Z) (i : nat) (h : heap) (l : list nat) : Prop :=
  forall j, In j l -> off (h j) <> auto_off h (c_len (h i)) l start + c_len (h i) - 1.
Fixpoint autos_fit (start : Z) (js : list nat) (h : heap) (l : list nat) : Prop :=
  match js with
  | [] => True
  | j :: r => let h := hset j (c_set_off None (h j)) h in
    fits start j h l /\ let (h', l') := register_auto start j (h, l) in autos_fit start r h' l'
  end.
(** [register] of [i] uses only such ranges, for [i] itself or for the capabilities it displaces. *)
Definition register_fits (start : Z) (i : nat) (o : option Z) (h : heap) (l : list nat) : Prop :=
  let l := remove1 i l in
  let h := match o with Some _ => hset i (c_set_off o (h i)) h | None => h end in
  if match c_off (h i) with Some o => negb (o =? 0) | None => false end then
    let bump := filter (fun j => overlaps (h i) (h j)) l in
    let (h, l) := build (fold_left (fun l j => remove1 j l) bump l ++ [i]) h in
    autos_fit start bump h l
  else fits start i h l.
