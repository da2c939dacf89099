(** Configuration space as bytes. *)
From Verif Require Import Base ModelConfig SpecConfig.

(** Byte [a] of the configuration space, [None] if its register cannot be read. *)
Definition cfg_byte (rd : fnc -> Z -> res (option Z)) (f : fnc) (a : Z) : option Z :=
  match rd f (a / 4) with Ok (Some v) => Some ((v / 2 ^ (8 * (a mod 4))) mod 256) | _ => None end.
(** A register that can be read, with a value of 32 bits. *)
Definition readable (rd : fnc -> Z -> res (option Z)) (f : fnc) (r : Z) : Prop := exists v, rd f r = Ok (Some v) /\ 0 <= v < 2 ^ 32.

(** Bit [i] of register [r] with value [v] and masks [rw], [w1c] after a write of the bytes [d] at [addr]. *)
Definition host_bit (rw w1c addr : Z) (d : list Z) (r v i : Z) : bool :=
  let b := 4 * r + i / 8 in
  if (i <? 32) && (addr <=? b) && (b <? addr + zlen d) then
    let x := Z.testbit (nth (Z.to_nat (b - addr)) d 0) (i mod 8) in
    if Z.testbit rw i then x else if Z.testbit w1c i then Z.testbit v i && negb x else Z.testbit v i
  else Z.testbit v i.
(** The three kinds of functions: read, write, and the masks of a register. *)
Definition cfg_kinds : list ((fnc -> Z -> res (option Z)) * (Z -> Z -> Z -> fnc -> fnc) * (fnc -> Z -> option (Z * Z * Z))) :=
  [(fn_read, fn_write, cfg_masks fn_rw fn_w1c (SpecRegs.tab [(3, 0x40000000)]));
   (ep_read, ep_write, cfg_masks ep_rw ep_w1c (SpecRegs.tab [(3, 0x40000000)]));
   (br_read, br_write, cfg_masks br_rw br_w1c (SpecRegs.tab [(3, 0x40000000)]))].

(** The bytes that a sequence of register writes (register, data, byte enables) touches, in order. *)
Definition lanes (w : Z * Z * Z) : list (Z * Z) :=
  let '(reg, data, be) := w in
  flat_map (fun j => if Z.testbit be j then [(4 * reg + j, (data / 2 ^ (8 * j)) mod 256)] else []) [0; 1; 2; 3].
Definition write_all (wr : Z -> Z -> Z -> fnc -> fnc) (ws : list (Z * Z * Z)) (f : fnc) : fnc :=
  fold_left (fun f '(reg, data, be) => wr reg data be f) ws f.
