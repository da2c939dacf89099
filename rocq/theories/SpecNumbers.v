From Verif Require Import Base ModelUtils ModelTlp ModelAttrs ModelConfig ModelFunction ModelRoute.

(** Histories of devices, for the properties about function numbers. *)
Definition nums (d : dev) : list Z := map fnum (d_fns d).
(** A history of a device: functions appended (the number is chosen), added under their own identifier, and bus
    numbers captured.  A call that raises leaves the device as it was, and the caller may go on. *)
Inductive dop := OAppend (x : fnc * Z) | OAdd (x : fnc * Z) | OBus (b : Z).
Definition dev_op (d : dev) (o : dop) : dev :=
  match (match o with OAppend x => append_function x d | OAdd x => add_function x d | OBus b => set_bus b d end) with
  | Ok d' => d'
  | Err _ => d
  end.
Definition dev_run (ops : list dop) (d : dev) : dev := fold_left dev_op ops d.
(** A function added under its own identifier has a valid one. *)
Definition dop_ok (o : dop) : Prop := match o with OAdd x => 0 <= fnum x < 8 | _ => True end.
(** A switch to which [n] ports are added one after the other. *)
Fixpoint make_ports (n : nat) : res (list pcie_id) :=
  match n with O => Ok [] | S n => l <- make_ports n ;; add_endpoint 1 l end.
(** Type 0 configuration requests, and the function of a device that captured bus number [b] from one. *)
Definition cfg0 (ty : tlp_type) : bool := match ty with CFG_READ_0 | CFG_WRITE_0 => true | _ => false end.
Definition rebus (b : Z) (x : fnc * Z) : fnc * Z := (with_id (mkId b (device (f_id (fst x))) (func (f_id (fst x)))) (fst x), snd x).
