(** Word access helpers.  The same text occurs eight times: core/function.py:602-711 and core/rc.py:749-859 (IO and memory),
    core/rc.py:605-670 and core/pci.py:420-471 (configuration space), core/rc.py:686-747 and core/pci.py:481-537
    (capabilities).  It is modelled once, over the two byte accesses [rd addr length] and [wr addr data] of a window with
    state [S].  Line numbers are those of [mem_*] in core/function.py.  The word size [ws] is a natural number, the timeout,
    [attr] and [tc] arguments are handed through and not modelled. *)
From Verif Require Import Base ModelUtils ModelRegion.

Inductive order := Little | Big.
(** [w.to_bytes(ws, byteorder)] *)
Definition word_bytes (o : order) (ws : nat) (w : Z) : res (list Z) :=
  if (0 <=? w) && (w <? 256 ^ Z.of_nat ws) then Ok (match o with Little => le_bytes ws w | Big => be_bytes ws w end)
  else Err OverflowError.
(** [int.from_bytes(d, byteorder)] *)
Definition word_val (o : order) (d : list Z) : Z := match o with Little => from_le d | Big => from_be d end.

(** core/function.py:690-693 *)
Fixpoint words_data (o : order) (ws : nat) (words acc : list Z) : res (list Z) :=
  match words with
  | [] => Ok acc
  | w :: l => d <- word_bytes o ws w ;; words_data o ws l (acc ++ d)
  end.
(** core/function.py:663-666 *)
Definition data_words (o : order) (ws : nat) (count : Z) (d : list Z) : list Z :=
  map (fun k => word_val o (slice (Z.of_nat ws * Z.of_nat k) (Z.of_nat ws * (Z.of_nat k + 1)) d)) (List.seq 0 (Z.to_nat count)).
(** [l[0]] *)
Definition first_of {S} (x : S * list Z) : res (S * Z) :=
  match snd x with v :: _ => Ok (fst x, v) | [] => Err IndexError end.

Section Window.
Context {S : Type} (rd : Z -> Z -> S -> res (S * list Z)) (wr : Z -> list Z -> S -> res S).
(** core/function.py:661-666 *)
Definition read_words (addr count : Z) (o : order) (ws : nat) (s : S) : res (S * list Z) :=
  '(s, d) <- rd addr (count * Z.of_nat ws) s ;; Ok (s, data_words o ws count d).
(** core/function.py:668-672 *)
Definition read_dwords (addr count : Z) (o : order) (s : S) := read_words addr count o 4 s.
Definition read_qwords (addr count : Z) (o : order) (s : S) := read_words addr count o 8 s.
(** core/function.py:674-684 *)
Definition read_byte (addr : Z) (s : S) : res (S * Z) := x <- rd addr 1 s ;; first_of x.
Definition read_word (addr : Z) (o : order) (ws : nat) (s : S) : res (S * Z) := x <- read_words addr 1 o ws s ;; first_of x.
Definition read_dword (addr : Z) (o : order) (s : S) : res (S * Z) := x <- read_dwords addr 1 o s ;; first_of x.
Definition read_qword (addr : Z) (o : order) (s : S) : res (S * Z) := x <- read_qwords addr 1 o s ;; first_of x.
(** core/function.py:689-694 *)
Definition write_words (addr : Z) (words : list Z) (o : order) (ws : nat) (s : S) : res S :=
  d <- words_data o ws words [] ;; wr addr d s.
(** core/function.py:696-700 *)
Definition write_dwords (addr : Z) (words : list Z) (o : order) (s : S) := write_words addr words o 4 s.
Definition write_qwords (addr : Z) (words : list Z) (o : order) (s : S) := write_words addr words o 8 s.
(** core/function.py:702-712 *)
Definition write_byte (addr v : Z) (s : S) : res S := wr addr [v] s.
Definition write_word (addr v : Z) (o : order) (ws : nat) (s : S) := write_words addr [v] o ws s.
Definition write_dword (addr v : Z) (o : order) (s : S) := write_dwords addr [v] o s.
Definition write_qword (addr v : Z) (o : order) (s : S) := write_qwords addr [v] o s.

(** core/pci.py:473-479, 506-512 [capability_read], [capability_write]; [off] is the result of [get_capability_offset]. *)
Definition cap_read (off : option Z) (addr length : Z) (s : S) : res (S * list Z) :=
  match off with Some o => if zbool o then rd (addr + o) length s else Err PyException | None => Err PyException end.
Definition cap_write (off : option Z) (addr : Z) (d : list Z) (s : S) : res S :=
  match off with Some o => if zbool o then wr (addr + o) d s else Err PyException | None => Err PyException end.
End Window.
