(** Link settings: the checks of the device model constructors, their clock, and the connection of two ports.  Frequencies, rates and
    times are exact rationals; the code has floats (simplification: no rounding). *)
From Coq Require Import QArith Qround.
From Verif Require Import Base ModelVendorFn.
Open Scope Z_scope.

(** Speed, lanes, interface width, frequency in Hz: us_model.py:40-68, usp_model.py:42-79, s10_model.py:39-56, ptile_model.py:39-69. *)
Definition us_configs : list (Z * Z * Z * Z) :=
  [(1, 1, 64, 62500000); (1, 1, 64, 125000000); (1, 1, 64, 250000000); (1, 2, 64, 62500000); (1, 2, 64, 125000000); (1, 2, 64, 250000000);
   (1, 4, 64, 125000000); (1, 4, 64, 250000000); (1, 8, 64, 250000000); (1, 8, 128, 125000000); (2, 1, 64, 62500000); (2, 1, 64, 125000000);
   (2, 1, 64, 250000000); (2, 2, 64, 125000000); (2, 2, 64, 250000000); (2, 4, 64, 250000000); (2, 4, 128, 125000000); (2, 8, 128, 250000000);
   (2, 8, 256, 125000000); (3, 1, 64, 125000000); (3, 1, 64, 250000000); (3, 2, 64, 250000000); (3, 2, 128, 125000000); (3, 4, 128, 250000000);
   (3, 4, 256, 125000000); (3, 8, 256, 250000000)].
Definition usp_configs : list (Z * Z * Z * Z) :=
  [(1, 1, 64, 62500000); (1, 1, 64, 125000000); (1, 1, 64, 250000000); (1, 2, 64, 62500000); (1, 2, 64, 125000000); (1, 2, 64, 250000000);
   (1, 4, 64, 125000000); (1, 4, 64, 250000000); (1, 8, 64, 250000000); (1, 8, 128, 125000000); (1, 16, 128, 250000000); (2, 1, 64, 62500000);
   (2, 1, 64, 125000000); (2, 1, 64, 250000000); (2, 2, 64, 125000000); (2, 2, 64, 250000000); (2, 4, 64, 250000000); (2, 4, 128, 125000000);
   (2, 8, 128, 250000000); (2, 8, 256, 125000000); (2, 16, 256, 250000000); (3, 1, 64, 125000000); (3, 1, 64, 250000000); (3, 2, 64, 250000000);
   (3, 2, 128, 125000000); (3, 4, 128, 250000000); (3, 4, 256, 125000000); (3, 8, 256, 250000000); (3, 16, 512, 250000000); (4, 1, 64, 250000000);
   (4, 1, 128, 125000000); (4, 2, 128, 250000000); (4, 2, 256, 125000000); (4, 4, 256, 250000000); (4, 8, 512, 250000000)].
Definition s10_configs : list (Z * Z * Z * Z) :=
  [(1, 1, 256, 125000000); (1, 2, 256, 125000000); (1, 4, 256, 125000000); (1, 8, 256, 125000000); (1, 16, 256, 125000000); (2, 1, 256, 125000000);
   (2, 2, 256, 125000000); (2, 4, 256, 125000000); (2, 8, 256, 125000000); (2, 16, 256, 250000000); (3, 1, 256, 125000000); (3, 2, 256, 125000000);
   (3, 4, 256, 125000000); (3, 8, 256, 250000000); (3, 16, 512, 250000000)].
Definition ptile_configs : list (Z * Z * Z * Z) :=
  [(3, 4, 128, 250000000); (3, 8, 256, 250000000); (3, 16, 256, 250000000); (3, 16, 512, 250000000); (4, 4, 128, 350000000); (4, 4, 128, 400000000);
   (4, 4, 128, 450000000); (4, 4, 128, 500000000); (4, 8, 256, 175000000); (4, 8, 256, 200000000); (4, 8, 256, 225000000); (4, 8, 256, 250000000);
   (4, 8, 256, 350000000); (4, 8, 256, 400000000); (4, 8, 256, 450000000); (4, 8, 256, 500000000); (4, 8, 512, 175000000); (4, 8, 512, 200000000);
   (4, 8, 512, 225000000); (4, 8, 512, 250000000); (4, 16, 512, 175000000); (4, 16, 512, 200000000); (4, 16, 512, 225000000); (4, 16, 512, 250000000);
   (4, 16, 512, 350000000); (4, 16, 512, 400000000); (4, 16, 512, 450000000); (4, 16, 512, 500000000)].
Definition valid_configs (v : vendor) : list (Z * Z * Z * Z) :=
  match v with VUs => us_configs | VUsp => usp_configs | VS10 => s10_configs | VPtile => ptile_configs end.

(** [pcie_generation], [pcie_link_width], [user_clk_frequency] or [pld_clk_frequency]. *)
Record link_args := mkArgs { a_gen : option Z; a_width : option Z; a_freq : option Q }.
(** [if freq is not None and freq < 1e6: freq *= 1e6]: us_model.py:589-590, usp_model.py:674-675, s10_model.py:422-423, ptile_model.py:558-559. *)
Definition rescale (f : Q) : Q := if Qle_bool (inject_Z 1000000) f then f else Qmult f (inject_Z 1000000).
(** [not x] for an argument *)
Definition unset (o : option Z) : bool := match o with None => true | Some x => x =? 0 end.
Definition unset_q (o : option Q) : bool := match o with None => true | Some x => Qeq_bool x (inject_Z 0) end.
(** not [x is not None and x != c] *)
Definition agrees (o : option Z) (c : Z) : bool := match o with None => true | Some x => x =? c end.
Definition agrees_q (o : option Q) (c : Z) : bool := match o with None => true | Some x => Qeq_bool x (inject_Z c) end.
(** The lanes of the ports of a P-tile: ptile_model.py:576-581, 652-657. *)
Definition port_lanes (v : vendor) (port lanes : Z) : bool :=
  match v with
  | VPtile => negb ((port =? 1) && (lanes >? 8)) && negb ((port >=? 2) && (lanes >? 4))
  | _ => true
  end.
(** us_model.py:597-604, usp_model.py:682-689, s10_model.py:430-437, ptile_model.py:566-581.  On a P-tile the lanes of the port are looked
    at only if the link width is given. *)
Definition selectable (v : vendor) (port dw : Z) (a : link_args) (c : Z * Z * Z * Z) : bool :=
  let '(g, w, d, f) := c in
  agrees (a_gen a) g && agrees (a_width a) w && (dw =? d) && agrees_q (a_freq a) f &&
  match a_width a with Some _ => port_lanes v port w | None => true end.
Definition or_else {A} (o : option A) (x : A) : option A := match o with None => Some x | Some _ => o end.
(** us_model.py:592-616, usp_model.py:677-701, s10_model.py:425-449, ptile_model.py:561-593. *)
Definition select (v : vendor) (port dw : Z) (a : link_args) : link_args :=
  if unset (a_gen a) || unset (a_width a) || unset_q (a_freq a) then
    match find (selectable v port dw a) (rev (valid_configs v)) with
    | Some (g, w, _, f) => mkArgs (or_else (a_gen a) g) (or_else (a_width a) w) (or_else (a_freq a) (inject_Z f))
    | None => a
    end
  else a.
Definition mem_z (x : Z) (l : list Z) : bool := existsb (Z.eqb x) l.
Definition mem_oz (o : option Z) (l : list Z) : bool := match o with Some x => mem_z x l | None => false end.
Definition mem_q (x : Q) (l : list Z) : bool := existsb (fun y => Qeq_bool x (inject_Z y)) l.
(** The sets in the assertions: us_model.py:586, 649-651, usp_model.py:671, 751-753, s10_model.py:419, 493-495, ptile_model.py:555, 636-638. *)
Definition dw_set (v : vendor) : list Z :=
  match v with VUs => [64; 128; 256] | VUsp => [64; 128; 256; 512] | VS10 => [256; 512] | VPtile => [128; 256; 512] end.
Definition gen_set (v : vendor) : list Z :=
  match v with VUs | VS10 => [1; 2; 3] | VUsp => [1; 2; 3; 4] | VPtile => [3; 4] end.
Definition width_set (v : vendor) : list Z := match v with VPtile => [4; 8; 16] | _ => [1; 2; 4; 8; 16] end.
Definition freq_set (v : vendor) : list Z :=
  match v with
  | VUs | VUsp => [62500000; 125000000; 250000000]
  | VS10 => [125000000; 250000000]
  | VPtile => [175000000; 200000000; 225000000; 250000000; 350000000; 400000000; 450000000; 500000000]
  end.

(** [alignment] and the straddle options; the Intel models have neither. *)
Inductive align := Dword | Address | OtherAlign.
Record straddle := mkSt { st_align : align; st_cq : bool; st_cc : bool; st_rq : bool; st_rc : bool; st_rc4 : bool }.
Definition is_dword (a : align) : bool := match a with Dword => true | _ => false end.
(** us_model.py:652-658, usp_model.py:757-768. *)
Definition check_straddle (v : vendor) (dw : Z) (s : straddle) : res unit :=
  match v with
  | VUs =>
      _ <- py_assert (match st_align s with OtherAlign => false | _ => true end) ;;
      _ <- (if (dw <? 256) || negb (is_dword (st_align s)) then py_assert (negb (st_rc s)) else Ok tt) ;;
      py_assert (is_dword (st_align s))
  | VUsp =>
      _ <- py_assert (match st_align s with OtherAlign => false | _ => true end) ;;
      _ <- (if (dw <? 256) || negb (is_dword (st_align s)) then
              _ <- py_assert (negb (st_rc s)) ;;
              if negb (dw =? 512) then
                _ <- py_assert (negb (st_rq s)) ;; _ <- py_assert (negb (st_cq s)) ;; _ <- py_assert (negb (st_cc s)) ;;
                py_assert (negb (st_rc4 s))
              else Ok tt
            else Ok tt) ;;
      py_assert (is_dword (st_align s))
  | _ => Ok tt
  end.
(** us_model.py:585-679, usp_model.py:670-789, s10_model.py:418-515, ptile_model.py:554-666: the settings that the constructor ends with,
    which [upstream_port.max_link_speed] and [max_link_width] are set to.  [None / 1e6] in a log call is a [TypeError]; other
    log calls are not modelled. *)
Definition link_setup (v : vendor) (port dw : Z) (s : straddle) (a : link_args) : res (Z * Z * Q) :=
  _ <- py_assert (mem_z dw (dw_set v)) ;;
  let a := mkArgs (a_gen a) (a_width a) (option_map rescale (a_freq a)) in
  let a := select v port dw a in
  match a_freq a with
  | None => Err TypeError
  | Some f =>
      _ <- py_assert (mem_oz (a_gen a) (gen_set v)) ;;
      _ <- py_assert (mem_oz (a_width a) (width_set v)) ;;
      _ <- py_assert (mem_q f (freq_set v)) ;;
      _ <- check_straddle v dw s ;;
      match a_gen a, a_width a with
      | Some g, Some w =>
          _ <- py_assert (existsb (fun '(g', w', d, f') => (g =? g') && (w =? w') && (dw =? d) && Qeq_bool f (inject_Z f') && port_lanes v port w')
                 (valid_configs v)) ;;
          Ok (g, w, f)
      | _, _ => Err AssertError
      end
  end.
(** [int(1e9/freq)]: the period of the user clock in ns: us_model.py:726, usp_model.py:870, s10_model.py:593, ptile_model.py:744. *)
Definition clock_ns (f : Q) : Z := Qfloor (Qdiv (inject_Z 1000000000) f).

(** ** Ports *)
(** [PCIE_GEN_RATE]: core/port.py:36-42, bits per second and lane. *)
Definition gen_rate (g : Z) : option Q :=
  match g with
  | 1 => Some (2500000000 * 8 # 10)
  | 2 => Some (5000000000 * 8 # 10)
  | 3 => Some (8000000000 * 128 # 130)
  | 4 => Some (16000000000 * 128 # 130)
  | 5 => Some (32000000000 * 128 # 130)
  | _ => None
  end.
(** core/port.py:53-65 *)
Definition update_factor (mps w : Z) : Q :=
  if mps <=? 256 then if w <=? 4 then 14 # 10 else if w =? 8 then 25 # 10 else 3 # 1
  else if w <=? 8 then 1 # 1 else 2 # 1.
(** core/port.py:68-76 *)
Definition max_update_latency (mps w g : Z) : Q :=
  let delay := if g =? 1 then 19 else if g =? 2 then 70 else 115 in
  Qplus (Qdiv (Qmult (inject_Z (mps + 28)) (update_factor mps w)) (inject_Z w)) (inject_Z delay).
(** [int(x)] *)
Definition qtrunc (x : Q) : Z := if Qle_bool (inject_Z 0) x then Qfloor x else - Qfloor (Qopp x).

(** What [connect] uses of a [SimPort]: core/port.py:365-424, 651-662.  [p_other]: the port at the other end. *)
Record sport := mkPort { p_other : option nat; p_max_speed : option Z; p_max_width : option Z; p_cur_speed : option Z; p_cur_width : option Z;
  p_payload : Z; p_port_delay : Q; p_symbol : Q; p_latency : Z; p_link_delay : Z }.
(** core/port.py:680-694, for speed and for width *)
Definition negotiate (a b : option Z) : option Z :=
  match a with
  | Some x => if zbool x then match b with Some y => if zbool y then Some (Z.min x y) else a | None => a end else b
  | None => b
  end.
Definition pset (i : nat) (p : sport) (h : nat -> sport) : nat -> sport := fun j => if Nat.eqb j i then p else h j.
(** core/port.py:674-703.  [ts]: [time_scale].  [PyException] also stands for [ZeroDivisionError]. *)
Definition connect_int (ts : Z) (i j : nat) (h : nat -> sport) : (nat -> sport) * res unit :=
  let p := h i in
  match p_other p with
  | Some _ => (h, Err PyException)
  | None =>
      let o := h j in
      let sp := negotiate (p_max_speed p) (p_max_speed o) in
      let wd := negotiate (p_max_width p) (p_max_width o) in
      let upd s l d := pset i (mkPort (Some j) (p_max_speed p) (p_max_width p) sp wd (p_payload p) (p_port_delay p) s l d) h in
      match wd, sp with
      | Some w, Some g =>
          match gen_rate g with
          | None => (upd (p_symbol p) (p_latency p) (p_link_delay p), Err KeyError)
          | Some r =>
              if w =? 0 then (upd (p_symbol p) (p_latency p) (p_link_delay p), Err PyException)
              else (upd (Qdiv (inject_Z 8) (Qmult r (inject_Z w)))
                        (qtrunc (Qmult (Qdiv (Qmult (max_update_latency (p_payload p) w g) (inject_Z 8)) r) (inject_Z ts)))
                        (qtrunc (Qmult (Qplus (p_port_delay p) (p_port_delay o)) (inject_Z ts))), Ok tt)
          end
      | _, _ => (upd (inject_Z 0) 0 0, Ok tt)
      end
  end.
(** core/port.py:664-672, for a [SimPort] [j] *)
Definition connect (ts : Z) (i j : nat) (h : nat -> sport) : (nat -> sport) * res unit :=
  match p_other (h i) with
  | Some _ => (h, Err PyException)
  | None =>
      match connect_int ts j i h with
      | (h1, Ok _) => connect_int ts i j h1
      | (h1, Err e) => (h1, Err e)
      end
  end.
(** The steps that the transmission of a packet of [n] bytes takes, [handle_tx]: core/port.py:705-706; and those of the link, [_transmit]:
    core/port.py:709-712. *)
Definition tx_steps (ts : Z) (p : sport) (n : Z) : Z := Z.max (qtrunc (Qmult (Qmult (inject_Z n) (p_symbol p)) (inject_Z ts))) 1.
Definition delay_steps (p : sport) : Z := Z.max (p_link_delay p) 1.
(** A new port: core/port.py:368-424, 653-662. *)
Definition new_port : sport := mkPort None None None None None 128 (5 # 1000000000) (inject_Z 0) 0 0.
