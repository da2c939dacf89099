(** Which link settings the user guides allow, in the form of rules, and what the ends of a link agree on. *)
From Coq Require Import QArith.
From Verif Require Import Base ModelVendorFn ModelLink.
Open Scope Z_scope.

(** PCI Express: transfers per second and lane, and data bits per transmitted bits (8b/10b, 128b/130b). *)
Definition transfers (g : Z) : Z :=
  if g =? 1 then 2500000000 else if g =? 2 then 5000000000 else if g =? 3 then 8000000000 else if g =? 4 then 16000000000 else 32000000000.
Definition code (g : Z) : Z * Z := if g <=? 2 then (8, 10) else (128, 130).
(** A user interface of [dw] bits at [f] Hz carries the data of [w] lanes. *)
Definition carries (g w dw f : Z) : Prop := w * transfers g * fst (code g) <= dw * f * snd (code g).
Definition carriesb (g w dw f : Z) : bool := w * transfers g * fst (code g) <=? dw * f * snd (code g).
(** The narrowest interface, not below [lo] bits, that carries the link. *)
Definition narrowest (lo g w dw f : Z) : Prop := carries g w dw f /\ (dw = lo \/ ~ carries g w (dw / 2) f).

(** PG156, PG213: user clocks 62.5 MHz (64 bits only), 125 MHz (to 256 bits, to 8 lanes), 250 MHz; the narrowest interface that carries the
    link.  UltraScale: to generation 3, 8 lanes, 256 bits.  UltraScale+: to generation 4, 16 lanes, 512 bits. *)
Definition xilinx_rule (plus : bool) (g w dw f : Z) : Prop :=
  In g (if plus then [1; 2; 3; 4] else [1; 2; 3]) /\ In w (if plus then [1; 2; 4; 8; 16] else [1; 2; 4; 8]) /\
  In dw (if plus then [64; 128; 256; 512] else [64; 128; 256]) /\ narrowest 64 g w dw f /\
  (f = 62500000 /\ dw = 64 \/ f = 125000000 /\ dw <= 256 /\ w <= 8 \/ f = 250000000).
(** Stratix 10: 256 bits at the lower of 125 and 250 MHz that carries the link, and 512 bits at 250 MHz if neither does. *)
Definition s10_rule (g w dw f : Z) : Prop :=
  In g [1; 2; 3] /\ In w [1; 2; 4; 8; 16] /\ carries g w dw f /\
  (dw = 256 /\ (f = 125000000 \/ f = 250000000 /\ ~ carries g w 256 125000000) \/
   dw = 512 /\ f = 250000000 /\ ~ carries g w 256 250000000).
(** P-tile: 32 bits per lane at 250 MHz for generation 3, also 256 bits for 16 lanes; for generation 4 32 bits per lane at the slower clocks
    or at twice these (4 lanes: only these), also 512 bits for 8 lanes at the slower clocks.  Port 1 has 8 lanes, ports 2 and 3 have 4. *)
Definition ptile_rule (port g w dw f : Z) : Prop :=
  let slow := In f [175000000; 200000000; 225000000; 250000000] in
  let fast := In f [350000000; 400000000; 450000000; 500000000] in
  In w [4; 8; 16] /\ (port = 1 -> w <= 8) /\ (2 <= port -> w <= 4) /\
  (g = 3 /\ f = 250000000 /\ (dw = 32 * w \/ w = 16 /\ dw = 256) \/
   g = 4 /\ (dw = 32 * w /\ (slow /\ w <> 4 \/ fast) \/ w = 8 /\ dw = 512 /\ slow)).
Definition allowed (v : vendor) (port dw g w f : Z) : Prop :=
  match v with
  | VUs => xilinx_rule false g w dw f
  | VUsp => xilinx_rule true g w dw f
  | VS10 => s10_rule g w dw f
  | VPtile => ptile_rule port g w dw f
  end.
(** The settings are the ones asked for; a frequency is in Hz, in MHz if it is below 1000000. *)
Definition hz (q : Q) (f : Z) : Prop := Qle (inject_Z 1000000) q /\ Qeq q (inject_Z f) \/ Qlt q (inject_Z 1000000) /\ Qeq (Qmult q (inject_Z 1000000)) (inject_Z f).
Definition asked (a : link_args) (g w f : Z) : Prop :=
  (forall x, a_gen a = Some x -> x = g) /\ (forall x, a_width a = Some x -> x = w) /\ (forall q, a_freq a = Some q -> hz q f).
(** Faster generation, then more lanes, then faster clock. *)
Definition no_better (g w f g' w' f' : Z) : Prop := g' < g \/ g' = g /\ (w' < w \/ w' = w /\ f' <= f).
(** Straddling, PG213: on 512-bit interfaces with dword alignment; RC straddling also on 256 bits. *)
Definition straddle_allowed (v : vendor) (dw : Z) (s : straddle) : Prop :=
  st_align s = Dword /\ (st_rc s = true -> 256 <= dw) /\
  (v = VUsp -> (st_cq s = true -> dw = 512) /\ (st_cc s = true -> dw = 512) /\ (st_rq s = true -> dw = 512) /\ (st_rc4 s = true -> dw = 512)).

(** What two ends with maximum [a] and [b] (0 or [None]: no restriction) agree on: a value that neither exceeds and one of them has. *)
Definition restricts (o : option Z) (x : Z) : Prop := o = Some x /\ x <> 0.
Definition agreed (a b r : option Z) : Prop :=
  (forall x, restricts a x \/ restricts b x -> exists y, r = Some y /\ 1 <= y <= x) /\
  (forall y, r = Some y -> y <> 0 -> restricts a y \/ restricts b y).
(** PCI Express Base Specification: maximum UpdateFC transmission latency in symbol times at 2.5 GT/s; 51 more at 5 GT/s, 96 more at higher
    rates. Rows: payload size; columns: link width. *)
Definition latency_widths : list Z := [1; 2; 4; 8; 12; 16; 32].
Definition latency_table : list (Z * list Z) :=
  [(128, [237; 128; 73; 67; 58; 48; 33]);
   (256, [416; 217; 118; 107; 90; 72; 45]);
   (512, [559; 289; 154; 86; 109; 86; 52]);
   (1024, [1071; 545; 282; 150; 194; 150; 84]);
   (2048, [2095; 1057; 538; 278; 365; 278; 148]);
   (4096, [4143; 2081; 1050; 534; 706; 534; 276])].
Definition latency_more (g : Z) : Z := if g =? 1 then 0 else if g =? 2 then 51 else 96.
