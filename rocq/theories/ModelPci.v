(** core/pci.py: [PciDevice], the host's view of a function.  Configuration accesses are given by two functions, [cr] and
    [cw], over the state of the rest of the system (instances: [config_read], [config_write] of ModelHost). *)
From Verif Require Import Base ModelUtils ModelTags.

Section Access.
Context {S : Type} (cr : Z -> Z -> S -> res (S * list Z)) (cw : Z -> list Z -> S -> res S).
(** [v.to_bytes(n, 'little')] *)
Definition to_bytes (n : nat) (v : Z) : res (list Z) :=
  if (0 <=? v) && (v <? 256 ^ Z.of_nat n) then Ok (le_bytes n v) else Err OverflowError.
(** core/pci.py:420-425, 436-440, 448-456, 464-468 *)
Definition cfg_read_word (addr : Z) (s : S) : res (S * Z) := '(s, d) <- cr addr 2 s ;; Ok (s, from_le d).
Definition cfg_read_dword (addr : Z) (s : S) : res (S * Z) := '(s, d) <- cr addr 4 s ;; Ok (s, from_le d).
Definition cfg_write_word (addr v : Z) (s : S) : res S := d <- to_bytes 2 v ;; cw addr d s.
Definition cfg_write_dword (addr v : Z) (s : S) : res S := d <- to_bytes 4 v ;; cw addr d s.

(** The attributes [bar_raw], [bar_size] ([None] where not set), [expansion_rom_raw], [expansion_rom_size]. *)
Record probed := mkProbed { p_raw : Z -> option Z; p_size : Z -> option Z; p_rom_raw : Z; p_rom_size : Z }.
Definition set_bar (bar raw size : Z) (p : probed) : probed :=
  mkProbed (fset bar (Some raw) (p_raw p)) (fset bar (Some size) (p_size p)) (p_rom_raw p) (p_rom_size p).
(** core/pci.py:1070-1073, 1102-1105, 1132-1135: save, write a pattern, read, restore.  [save] is the address that the saved
    value comes from. *)
Definition probe (save addr pat : Z) (s : S) : res (S * Z * Z) :=
  '(s, orig) <- cfg_read_dword save s ;;
  s <- cfg_write_dword addr pat s ;;
  '(s, val) <- cfg_read_dword addr s ;;
  s <- cfg_write_dword addr orig s ;;
  Ok (s, orig, val).
(** core/pci.py:1068-1129 *)
Fixpoint read_bars_loop (fuel : nat) (cnt bar : Z) (p : probed) (s : S) : res (S * probed) :=
  match fuel with
  | O => Ok (s, p)
  | Datatypes.S fuel =>
    if bar <? cnt then
      '(s, orig, val) <- probe (0x10 + bar * 4) (0x10 + bar * 4) 0xffffffff s ;;
      if val =? 0 then read_bars_loop fuel cnt (bar + 1) (set_bar bar 0 0 p) s
      else if zbool (Z.land val 1) then
        let mask := Z.lor (Z.land (Z.lnot val) 0xffffffff) 3 in
        read_bars_loop fuel cnt (bar + 1) (set_bar bar orig (mask + 1) p) s
      else if zbool (Z.land val 4) then
        if cnt - 1 <=? bar then Err PyException
        else
          '(s, orig2, val2) <- probe (0x10 + bar * 4) (0x10 + (bar + 1) * 4) 0xffffffff s ;;
          let val := Z.lor val (Z.shiftl val2 32) in
          let mask := Z.lor (Z.land (Z.lnot val) 0xffffffffffffffff) 0xf in
          read_bars_loop fuel cnt (bar + 2) (set_bar bar (Z.lor orig (Z.shiftl orig2 32)) (mask + 1) p) s
      else
        let mask := Z.lor (Z.land (Z.lnot val) 0xffffffff) 0xf in
        read_bars_loop fuel cnt (bar + 1) (set_bar bar orig (mask + 1) p) s
    else Ok (s, p)
  end.
(** core/pci.py:1062-1151; [rom] is the address of the ROM register, 0 if there is none. *)
Definition read_bars (cnt rom : Z) (p : probed) (s : S) : res (S * probed) :=
  '(s, old_cmd) <- cfg_read_word 4 s ;;
  let cmd := Z.land old_cmd (Z.lnot 3) in
  s <- (if negb (cmd =? old_cmd) then cfg_write_word 4 cmd s else Ok s) ;;
  '(s, p) <- read_bars_loop (Z.to_nat cnt) cnt 0 p s ;;
  if zbool rom then
    '(s, orig, val) <- probe rom rom 0xfffff800 s ;;
    Ok (s, if zbool val then
             mkProbed (p_raw p) (p_size p) orig (Z.lor (Z.land (Z.lnot val) 0xffffffff) 0x7ff + 1)
           else mkProbed (p_raw p) (p_size p) 0 0)
  else Ok (s, p).
End Access.
