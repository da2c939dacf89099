(** Where the bytes of words are. *)
From Verif Require Import Base ModelTlp ModelRegion ModelCompleter SpecMem ModelWords.

(** Byte [j] of a number, counted from the least significant one. *)
Definition byte_of (v j : Z) : Z := (v / 256 ^ j) mod 256.
(** The offset of byte [j] of word [i] of an array of words of [ws] bytes. *)
Definition place (o : order) (ws i j : Z) : Z := ws * i + match o with Little => j | Big => ws - 1 - j end.
Definition fits (ws : nat) (w : Z) : Prop := 0 <= w < 256 ^ Z.of_nat ws.
(** The bytes [d] are the words [words]. *)
Record layout (o : order) (ws : nat) (words d : list Z) : Prop := {
  ly_len : zlen d = Z.of_nat ws * zlen words;
  ly_fits : Forall (fits ws) words;
  ly_at : forall i j, 0 <= i < zlen words -> 0 <= j < Z.of_nat ws ->
    nth (Z.to_nat (place o (Z.of_nat ws) i j)) d 0 = byte_of (nth (Z.to_nat i) words 0) j }.
(** A window that stores bytes: [view] is its contents; the [n] bytes from [addr] on can be read and written in every state
    that is reached by writing. *)
Record stores {S} (rd : Z -> Z -> S -> res (S * list Z)) (wr : Z -> list Z -> S -> res S) (view : S -> Z -> Z) (ok : S -> Prop)
  (addr n : Z) : Prop := {
  st_read : forall s, ok s -> exists s' d, rd addr n s = Ok (s', d) /\ zlen d = n /\ (forall x, view s' x = view s x) /\ ok s' /\
    forall k, 0 <= k < n -> nth (Z.to_nat k) d 0 = view s (addr + k);
  st_write : forall s d, ok s -> zlen d = n -> exists s', wr addr d s = Ok s' /\ ok s' /\
    forall x, view s' x = if (addr <=? x) && (x <? addr + n) then nth (Z.to_nat (x - addr)) d 0 else view s x }.

(** ** The windows of the package *)
(** A function reads and writes host memory (core/region.py over core/rc.py). *)
Definition host_rd c rcc tg tl addr n (h : host_mem) : res (host_mem * list Z) :=
  d <- mem_read c (fun j t => rc_mem_read rcc h (set_tag (tg j) t) ++ tl j) addr n ;; Ok (h, d).
Definition host_wr c addr d (h : host_mem) : res host_mem := ts <- mem_write c addr d ;; Ok (fold_left rc_mem_write ts h).
(** The host reads and writes a memory BAR at [base] (core/region.py over core/endpoint.py). *)
Definition bar_rd c cid mps base tg tl addr n (r : region) : res (region * list Z) :=
  d <- mem_read c (fun j t => ep_mem_read cid mps (Some (r, address t - base)) (set_tag (tg j) t) ++ tl j) addr n ;; Ok (r, d).
Definition bar_wr c base addr d (r : region) : res region := ts <- mem_write c addr d ;; ep_write_all base r ts.
(** The same for an IO BAR. *)
Definition iobar_rd c cid base tg tl addr n (r : region) : res (region * list Z) :=
  d <- io_read c (fun j t => match ep_io_read cid (Some (r, address t - base)) (set_tag (tg j) t) with Ok l => l ++ tl j | Err _ => [] end) addr n ;;
  Ok (r, d).
Definition iobar_wr c cid base tg addr d (r : region) : res region :=
  ts <- io_write c addr d ;;
  '(css, r) <- ep_io_write_all cid base tg 0 r ts ;;
  _ <- io_write_join (fun j _ => nth j css []) 0 ts ;;
  Ok r.

(** All accesses inside the DWORDs that [n] bytes at [addr] touch are possible. *)
Definition host_ok addr n (h : host_mem) : Prop :=
  forall a k, hull_lo addr <= a -> a + k <= hull_hi addr n -> h_find h a k = true /\ h_access h a k = true.
