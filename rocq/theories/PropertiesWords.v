(** C40: word access helpers. *)
From Verif Require Import Base ModelUtils ModelTlp ModelRegion ModelCompleter SpecMem ModelAttrs ModelCaps ModelCapList ModelConfig ModelFunction
  ModelHost SpecConfig SpecHost ProofsHost ModelWords SpecWords ProofsWords ProofsWordsE2e PropertiesMem PropertiesCapList PropertiesConfig.

(** A write is one access with the bytes of the words at their places; a word that does not fit raises before any access. *)
Theorem C40_write : forall S (wr : Z -> list Z -> S -> res S) addr words o ws s,
  (Forall (fits ws) words -> exists d, layout o ws words d /\ bytes_ok d /\ write_words wr addr words o ws s = wr addr d s) /\
  (~ Forall (fits ws) words -> write_words wr addr words o ws s = Err OverflowError).
Proof. intros S wr. exact (write_words_ok wr). Qed.
(** A read is one access whose bytes are at the places of the words it returns. *)
Theorem C40_read : forall S (rd : Z -> Z -> S -> res (S * list Z)) addr n o ws s s' d,
  0 <= n -> rd addr (n * Z.of_nat ws) s = Ok (s', d) -> bytes_ok d -> zlen d = n * Z.of_nat ws ->
  exists words, read_words rd addr n o ws s = Ok (s', words) /\ zlen words = n /\ layout o ws words d.
Proof. intros S rd. exact (read_words_ok rd). Qed.
Theorem C40_read_fails : forall S (rd : Z -> Z -> S -> res (S * list Z)) addr n o ws s e,
  rd addr (n * Z.of_nat ws) s = Err e -> read_words rd addr n o ws s = Err e.
Proof. intros S rd. exact (read_words_err rd). Qed.
(** Bytes and word size determine the words. *)
Theorem C40_layout : forall o ws u v d, layout o ws u d -> layout o ws v d -> zlen u = zlen v -> u = v.
Proof. exact layout_inj. Qed.

(** Any window that stores bytes: reading words after writing them gives the words, the bytes are where they should be and
    nothing else changes. *)
Theorem C40_words : forall S (rd : Z -> Z -> S -> res (S * list Z)) wr view ok addr words o ws s,
  stores rd wr view ok addr (zlen words * Z.of_nat ws) -> ok s -> Forall (fits ws) words ->
  exists s', write_words wr addr words o ws s = Ok s' /\ ok s' /\
    (exists s2, read_words rd addr (zlen words) o ws s' = Ok (s2, words) /\ ok s2 /\ forall x, view s2 x = view s' x) /\
    (forall i j, 0 <= i < zlen words -> 0 <= j < Z.of_nat ws ->
      view s' (addr + place o (Z.of_nat ws) i j) = byte_of (nth (Z.to_nat i) words 0) j) /\
    (forall x, x < addr \/ addr + zlen words * Z.of_nat ws <= x -> view s' x = view s x).
Proof. intros S rd wr. exact (words_trip rd wr). Qed.
Theorem C40_word : forall S (rd : Z -> Z -> S -> res (S * list Z)) wr view ok addr v o ws s, (0 < ws)%nat ->
  stores rd wr view ok addr (Z.of_nat ws) -> ok s -> fits ws v ->
  exists s' s2, write_word wr addr v o ws s = Ok s' /\ read_word rd addr o ws s' = Ok (s2, v) /\
    forall j, 0 <= j < Z.of_nat ws -> view s' (addr + match o with Little => j | Big => Z.of_nat ws - 1 - j end) = byte_of v j.
Proof. intros S rd wr. exact (word_trip rd wr). Qed.
Theorem C40_byte : forall S (rd : Z -> Z -> S -> res (S * list Z)) wr view ok addr v s, stores rd wr view ok addr 1 -> ok s ->
  exists s' s2, write_byte wr addr v s = Ok s' /\ read_byte rd addr s' = Ok (s2, v) /\ view s' addr = v.
Proof. intros S rd wr. exact (byte_trip rd wr). Qed.
(** The helpers for 4 and 8 bytes. *)
Theorem C40_sizes : forall S (rd : Z -> Z -> S -> res (S * list Z)) wr addr n words v o (s : S),
  read_dwords rd addr n o s = read_words rd addr n o 4 s /\ read_qwords rd addr n o s = read_words rd addr n o 8 s /\
  read_dword rd addr o s = read_word rd addr o 4 s /\ read_qword rd addr o s = read_word rd addr o 8 s /\
  write_dwords wr addr words o s = write_words wr addr words o 4 s /\ write_qwords wr addr words o s = write_words wr addr words o 8 s /\
  write_dword wr addr v o s = write_word wr addr v o 4 s /\ write_qword wr addr v o s = write_word wr addr v o 8 s.
Proof. intros. repeat split. Qed.

(** The windows of the package are such windows: host memory seen by a function, memory and IO BARs seen by the host. *)
Theorem C40_host : forall c rcc tg tl addr n, 0 <= rq_mrrs c -> 0 <= rq_mps c -> rq_bus_master c = true -> 0 <= rc_mps rcc -> 1 <= n ->
  stores (host_rd c rcc tg tl) (host_wr c) h_mem (host_ok addr n) addr n.
Proof. exact host_stores. Qed.
Theorem C40_bar : forall c cid mps base size tg tl addr n, 0 <= rq_mrrs c -> 0 <= rq_mps c -> rq_bus_master c = true -> 0 <= mps -> 1 <= n ->
  page_safe base size -> base <= hull_lo addr -> hull_hi addr n <= base + size ->
  stores (bar_rd c cid mps base tg tl) (bar_wr c base) (fun r x => rg_mem r (x - base)) (fun r => rg_size r = size) addr n.
Proof. exact bar_stores. Qed.
Theorem C40_io_bar : forall c cid base size tg tl addr n, rq_bus_master c = true -> 1 <= n -> base <= hull_lo addr -> hull_hi addr n <= base + size ->
  stores (iobar_rd c cid base tg tl) (iobar_wr c cid base tg) (fun r x => rg_mem r (x - base)) (fun r => rg_size r = size) addr n.
Proof. exact iobar_stores. Qed.

(** Configuration space: the words read are made of the register bytes. *)
Theorem C40_config : forall rd wr ms tg crs dev addr n o ws f, In (rd, wr, ms) cfg_kinds -> 0 <= n -> (0 < ws)%nat -> at_id dev f ->
  (forall r, addr / 4 <= r <= (addr + n * Z.of_nat ws - 1) / 4 -> readable rd f r) ->
  exists words f', read_words (config_read (cfg_deliver rd wr tg) crs dev) addr n o ws f = Ok (f', words) /\ zlen words = n /\ Forall (fits ws) words /\
    forall i j, 0 <= i < n -> 0 <= j < Z.of_nat ws ->
      cfg_byte rd f (addr + place o (Z.of_nat ws) i j) = Some (SpecWords.byte_of (nth (Z.to_nat i) words 0) j).
Proof. exact config_words. Qed.
(** Capabilities: the same accesses, shifted by the offset of the capability; without one they raise. *)
Theorem C40_capability : forall S (rd : Z -> Z -> S -> res (S * list Z)) wr off addr n words o ws s,
  read_words (cap_read rd off) addr n o ws s =
    (match off with Some x => if zbool x then read_words rd (addr + x) n o ws s else Err PyException | None => Err PyException end) /\
  (Forall (fits ws) words -> write_words (cap_write wr off) addr words o ws s =
    match off with Some x => if zbool x then write_words wr (addr + x) words o ws s else Err PyException | None => Err PyException end).
Proof. intros S rd wr. exact (cap_words rd wr). Qed.

Definition words_ex (o : order) (ws : nat) (words : list Z) : option (list Z * list Z) :=
  match write_words (bar_wr ex_cfg 0x4000) 0x4021 words o ws ex_region with
  | Ok r => match read_words (bar_rd ex_cfg id0 1 0x4000 Z.of_nat (fun _ => [])) 0x4021 (zlen words) o ws r with
            | Ok (_, l) => Some (read_mem (rg_mem r) 0x21 (zlen words * Z.of_nat ws), l) | Err _ => None end
  | Err _ => None
  end.
Example C40_ex : words_ex Little 4 [0x11223344; 0xaabbccdd] = Some ([0x44; 0x33; 0x22; 0x11; 0xdd; 0xcc; 0xbb; 0xaa], [0x11223344; 0xaabbccdd]) /\
  words_ex Big 3 [0x112233; 0xaabbcc; 1] = Some ([0x11; 0x22; 0x33; 0xaa; 0xbb; 0xcc; 0; 0; 1], [0x112233; 0xaabbcc; 1]) /\
  words_ex Big 2 [0x10000] = None.
Proof. repeat split; vm_compute; reflexivity. Qed.
Example C40_stores_ex : stores (bar_rd ex_cfg id0 1 0x4000 Z.of_nat (fun _ => [])) (bar_wr ex_cfg 0x4000)
  (fun r x => rg_mem r (x - 0x4000)) (fun r => rg_size r = 4096) 0x4021 12.
Proof. apply C40_bar; cbn; try lia; try reflexivity. left. exists 4. reflexivity. Qed.
Definition cfg_words_ex (o : order) (ws : nat) (n : Z) : option (list Z) :=
  match read_words (config_read (cfg_deliver ep_read ep_write (fun _ => 7)) None (mkId 5 0 0)) 6 n o ws f_ex with
  | Ok (_, l) => Some l | Err _ => None end.
Example C40_config_ex : cfg_words_ex Big 2 2 = Some [0x1020; 0] /\ cfg_words_ex Little 2 2 = Some [0x2010; 0] /\
  cfg_words_ex Little 1 3 = Some [0x10; 0x20; 0] /\ map (cfg_byte ep_read f_ex) [6; 7; 8] = [Some 0x10; Some 0x20; Some 0].
Proof. repeat split; vm_compute; reflexivity. Qed.

Print Assumptions C40_write.
Print Assumptions C40_read.
Print Assumptions C40_read_fails.
Print Assumptions C40_layout.
Print Assumptions C40_words.
Print Assumptions C40_word.
Print Assumptions C40_byte.
Print Assumptions C40_sizes.
Print Assumptions C40_host.
Print Assumptions C40_bar.
Print Assumptions C40_io_bar.
Print Assumptions C40_config.
Print Assumptions C40_capability.
