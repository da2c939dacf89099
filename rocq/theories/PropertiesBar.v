(** Base address registers (C21, C22). *)
From Verif Require Import Base ModelUtils ModelTlp ModelAttrs ModelCaps ModelCapList ModelConfig ModelFunction ModelHost ModelPci
  SpecConfig SpecHost SpecBar ProofsHost ProofsBar ProofsProbe PropertiesCapList PropertiesConfig.

(** ** C22 *)
(** What [configure_bar] sets up: a BAR of that kind, the size rounded up to a power of two that is possible, base 0. *)
Theorem C22_configured : forall nb i size ext pf io s, 0 <= nb <= 6 -> 0 <= i -> i + (if ext : bool then 2 else 1) <= nb -> 1 <= size ->
  size_ok (kind_of ext pf io) (size_of (kind_of ext pf io) size) ->
  exists s', configure_bar nb i size ext pf io s = Ok s' /\
    bar_at s' i (kind_of ext pf io) (size_of (kind_of ext pf io) size) 0 /\
    forall a, (forall j, i <= j < i + slots (kind_of ext pf io) -> a <> fn_bar j /\ a <> fn_bar_mask j) -> s' a = s a.
Proof. exact configured. Qed.
(** A write to any register, with any byte enables, leaves kind, size and alignment of every BAR; only a write to
    the BAR changes the base. *)
Theorem C22_kept : forall rd wr nb f i k n base reg d be, In (rd, wr, nb) bar_kinds -> 0 <= i -> i + slots k <= nb -> 0 <= be < 16 ->
  bar_at (f_attr f) i k n base ->
  exists base', bar_at (f_attr (wr reg d be f)) i k n base' /\ ((reg < 4 + i \/ 4 + i + slots k <= reg) -> base' = base).
Proof. exact bar_stays. Qed.
(** A BAR shows its base and its type bits. *)
Theorem C22_reads : forall rd wr nb f i k n base, In (rd, wr, nb) bar_kinds -> 0 <= i -> i + slots k <= nb ->
  bar_at (f_attr f) i k n base -> bar_read rd i k f = Ok (Some (base + type_bits k)).
Proof. exact bar_reads. Qed.
(** All ones give the size. *)
Theorem C22_sizing : forall rd wr nb f i k n base, In (rd, wr, nb) bar_kinds -> 0 <= i -> i + slots k <= nb ->
  bar_at (f_attr f) i k n base ->
  bar_read rd i k (bar_write wr i k (2 ^ bwidth k - 1) f) = Ok (Some (2 ^ bwidth k - 2 ^ n + type_bits k)).
Proof.
  intros. rewrite <- (ones_base k n) by apply H2. eapply bar_reads; [exact H|exact H0|exact H1|]. eapply bar_written; eauto.
  assert (0 < 2 ^ bwidth k) by (unfold bwidth; destruct (is_wide k); lia). lia.
Qed.
(** An aligned base written after that (after anything) is read back. *)
Theorem C22_base : forall rd wr nb f i k n base v, In (rd, wr, nb) bar_kinds -> 0 <= i -> i + slots k <= nb ->
  bar_at (f_attr f) i k n base -> 0 <= v < 2 ^ bwidth k -> v mod 2 ^ n = 0 ->
  bar_at (f_attr (bar_write wr i k v f)) i k n v /\ bar_read rd i k (bar_write wr i k v f) = Ok (Some (v + type_bits k)).
Proof.
  intros rd wr nb f i k n base v W Hi Hs B Hv M. pose proof (bar_written rd wr nb f i k n base v W Hi Hs B Hv) as B'. rewrite M, Z.sub_0_r in B'.
  split; [exact B'|]. exact (bar_reads rd wr nb _ i k n v W Hi Hs B').
Qed.
(** The host's probe, over configuration accesses delivered to the function, reports the sizes of all BARs and of the ROM and leaves them
    as they were.  Missing from the full statement: the base of a BAR of 64 bits, which the probe changes ([C22_probe_refuted]); what is reported as its
    previous content is the lower half, twice. *)
Theorem C22_probe_partial : forall rd wr nb tg crs dev p f l a rb, In (rd, wr, nb) bar_kinds -> at_id dev f ->
  laid_out (f_attr f) 0 l -> total_slots l = nb -> rom_at (f_attr f) a rb -> rb mod 2 ^ a = 0 ->
  exists f' p' l', read_bars (config_read (cfg_deliver rd wr tg) crs dev) (config_write (cfg_deliver rd wr tg) dev) nb (rom_of nb) p f = Ok (f', p') /\
    laid_out (f_attr f') 0 l' /\ Forall2 same_entry l l' /\
    (forall j k n base, In (j, k, n, base) (windows 0 l) -> p_size p' j = Some (2 ^ n) /\ (is_wide k = false -> p_raw p' j = Some (base + type_bits k)) /\
      (is_wide k = true -> p_raw p' j = Some ((base + type_bits k) mod 2 ^ 32 + 2 ^ 32 * ((base + type_bits k) mod 2 ^ 32)))) /\
    (forall j, In j (unused 0 l) -> p_size p' j = Some 0 /\ p_raw p' j = Some 0) /\
    rom_at (f_attr f') a rb /\ zbool (f_attr f' fn_expansion_rom_enable) = zbool (f_attr f fn_expansion_rom_enable) /\
    p_rom_size p' = if a =? 32 then 0 else 2 ^ a.
Proof.
  intros rd wr nb tg crs dev p f l a rb W I L T R M. destruct (probe_all rd wr nb tg crs dev p f l a rb W I L T R) as (f' & p' & l' & E & L' & S & [R1 R2] & R' & Z & P).
  exists f', p', l'. destruct R as (A & B & _). rewrite (rom_size a rb A B M) in P. auto 10.
Qed.

(** An endpoint with BARs of all kinds: 16 MiB in 32 bits; 1 MiB prefetchable in 64 bits; 256 bytes of IO; one unused; 4 KiB. *)
Definition conf (s : res attrs) (i size : Z) (ext pf io : bool) : res attrs := s <- s ;; configure_bar 6 i size ext pf io s.
Definition bars_conf : attrs :=
  match conf (conf (conf (conf (Ok (f_attr f_ops0)) 0 0x900000 false false false) 1 0x100000 true true false) 3 256 false false true) 5 10 false false false with
  | Ok s => s | Err _ => f_attr f_ops0
  end.
Definition bars_ex : fnc :=
  bar_write ep_write 0 (BMem false false) 0x12000000 (bar_write ep_write 1 (BMem true true) 0x1234500000 (bar_write ep_write 3 BIo 0x300
    (bar_write ep_write 5 (BMem false false) 0x80001230 (with_attr (fun _ => bars_conf) f_ops0)))).
Definition lay_ex : list entry :=
  [Some (BMem false false, 24, 0x12000000); Some (BMem true true, 20, 0x1234500000); Some (BIo, 8, 0x300); None; Some (BMem false false, 4, 0x80001230)].
Ltac props := vm_compute; repeat split; try reflexivity; try discriminate.
Example C22_layout_ex : laid_out bars_conf 0 [Some (BMem false false, 24, 0); Some (BMem true true, 20, 0); Some (BIo, 8, 0); None; Some (BMem false false, 4, 0)] /\
  laid_out (f_attr bars_ex) 0 lay_ex /\ total_slots lay_ex = 6 /\ rom_at (f_attr bars_ex) 32 0 /\ at_id (mkId 3 0 0) bars_ex.
Proof. props. Qed.
Example C22_sizing_ex :
  bar_read ep_read 1 (BMem true true) (bar_write ep_write 1 (BMem true true) (2 ^ 64 - 1) bars_ex) = Ok (Some 0xfffffffffff0000c) /\
  bar_read ep_read 3 BIo (bar_write ep_write 3 BIo (2 ^ 32 - 1) bars_ex) = Ok (Some 0xffffff01) /\
  bar_read ep_read 1 (BMem true true) bars_ex = Ok (Some 0x123450000c).
Proof. props. Qed.
Definition probed0 : probed := mkProbed (fun _ => None) (fun _ => None) 0 0.
Definition probe_ex : option (list (option Z) * list (option Z) * Z * list Z) :=
  match read_bars (config_read (cfg_deliver ep_read ep_write (fun _ => 7)) None (mkId 3 0 0)) (config_write (cfg_deliver ep_read ep_write (fun _ => 7)) (mkId 3 0 0)) 6 0x30 probed0 bars_ex with
  | Ok (f, p) => Some (map (p_size p) [0; 1; 2; 3; 4; 5], map (p_raw p) [0; 1; 2; 3; 4; 5], p_rom_size p, map (fun i => f_attr f (fn_bar i)) [0; 1; 2; 3; 4; 5])
  | Err _ => None
  end.
Example C22_probe_ex : probe_ex = Some
  ([Some 0x1000000; Some 0x100000; None; Some 0x100; Some 0; Some 0x10], [Some 0x12000000; Some 0x3450000c3450000c; None; Some 0x301; Some 0; Some 0x80001230], 0,
   [0x12000000; 0x3450000c; 0x3450000c; 0x301; 0; 0x80001230]).
Proof. props. Qed.
(** The probe writes the lower half of a BAR of 64 bits to its upper half. *)
Theorem C22_probe_refuted : exists f l, laid_out (f_attr f) 0 l /\ total_slots l = 6 /\ at_id (mkId 3 0 0) f /\ rom_at (f_attr f) 32 0 /\
  exists f' p', read_bars (config_read (cfg_deliver ep_read ep_write (fun _ => 7)) None (mkId 3 0 0)) (config_write (cfg_deliver ep_read ep_write (fun _ => 7)) (mkId 3 0 0))
    6 0x30 probed0 f = Ok (f', p') /\ bar_read ep_read 1 (BMem true true) f = Ok (Some 0x123450000c) /\ bar_read ep_read 1 (BMem true true) f' = Ok (Some 0x3450000c3450000c).
Proof.
  exists bars_ex, lay_ex. repeat (split; [solve [props]|]). eexists. eexists. split; [vm_compute; reflexivity|]. props.
Qed.

(** ** C21 *)
(** An address is claimed exactly if it is in a window of that kind, with the offset into it.  Missing from the full statement: windows of
    4 GiB and more ([C21_large_refuted]) and addresses above 4 GiB when there are memory BARs of 32 bits ([C21_high_refuted]). *)
Theorem C21_decode_partial : forall nb addr io s l, laid_out s 0 l -> total_slots l = nb -> 0 <= addr ->
  Forall small (windows 0 l) -> Forall (reaches addr io) (windows 0 l) ->
  match match_bar nb addr io s with
  | Ok (Some (i, off)) => exists k n base, In (i, k, n, base) (windows 0 l) /\ is_io k = io /\ base <= addr < base + 2 ^ n /\ off = addr - base
  | Ok None => forall w, In w (windows 0 l) -> of_kind io w -> ~ in_window addr w
  | Err _ => False
  end.
Proof. exact decode. Qed.
(** Windows that do not overlap are never confused. *)
Theorem C21_disjoint_partial : forall nb addr io s l i k n base, laid_out s 0 l -> total_slots l = nb -> 0 <= addr ->
  Forall small (windows 0 l) -> Forall (reaches addr io) (windows 0 l) -> windows_disjoint io l ->
  In (i, k, n, base) (windows 0 l) -> is_io k = io -> base <= addr < base + 2 ^ n -> match_bar nb addr io s = Ok (Some (i, addr - base)).
Proof. exact decode_unique. Qed.
(** Requests: those to an address in a window of their kind. *)
Theorem C21_tlp_partial : forall nb (f : fnc) t ty l, laid_out (f_attr f) 0 l -> total_slots l = nb -> 0 <= address t -> fmt_type t = Ok ty ->
  Forall small (windows 0 l) ->
  ((ty = IO_READ \/ ty = IO_WRITE) -> Forall (reaches (address t) true) (windows 0 l) ->
     exists b, match_tlp nb f t = Ok b /\ (b = true <-> exists w, In w (windows 0 l) /\ of_kind true w /\ in_window (address t) w)) /\
  ((ty = MEM_READ \/ ty = MEM_READ_64 \/ ty = MEM_WRITE \/ ty = MEM_WRITE_64) -> Forall (reaches (address t) false) (windows 0 l) ->
     exists b, match_tlp nb f t = Ok b /\ (b = true <-> exists w, In w (windows 0 l) /\ of_kind false w /\ in_window (address t) w)).
Proof. exact decode_tlp. Qed.
Example C21_ex :
  match_bar 6 0x12345678 false (f_attr bars_ex) = Ok (Some (0, 0x345678)) /\ match_bar 6 0x80001238 false (f_attr bars_ex) = Ok (Some (5, 8)) /\
  match_bar 6 0x80001240 false (f_attr bars_ex) = Ok None /\ match_bar 6 0x3ff true (f_attr bars_ex) = Ok (Some (3, 0xff)) /\
  match_bar 6 0x300 false (f_attr bars_ex) = Ok None /\ match_bar 6 0x12345ffff0 false (f_attr bars_ex) = Ok (Some (1, 0xffff0)) /\
  Forall small (windows 0 lay_ex) /\ Forall (reaches 0x12345678 false) (windows 0 lay_ex).
Proof. repeat (split; [vm_compute; reflexivity|]). split; repeat constructor; cbn; try lia; intros; lia. Qed.
Example C21_disjoint_ex : windows_disjoint false lay_ex /\ windows_disjoint true lay_ex.
Proof.
  split; intros w w' addr H H' K K' I I'; cbn in H, H'; repeat (destruct H as [<-|H]; [repeat (destruct H' as [<-|H']; [try reflexivity; try discriminate; cbn in I, I'; lia|]); destruct H'|]); destruct H.
Qed.
(** A memory BAR of 32 bits also claims addresses that agree with its window in the lower 32 bits only; the offset has the upper bits. *)
Theorem C21_high_refuted : exists s l addr i off, laid_out s 0 l /\ total_slots l = 6 /\ Forall small (windows 0 l) /\
  match_bar 6 addr false s = Ok (Some (i, off)) /\ off = 0x700345678 /\ forall w, In w (windows 0 l) -> ~ in_window addr w.
Proof.
  exists (f_attr bars_ex), lay_ex, 0x712345678, 0, 0x700345678. split; [props|]. split; [props|]. split; [repeat constructor; cbn; lia|].
  split; [vm_compute; reflexivity|]. split; [reflexivity|]. intros w H I. cbn in H. repeat (destruct H as [<-|H]; [cbn in I; lia|]). destruct H.
Qed.
(** A BAR of 64 bits and 4 GiB or more claims nothing; its upper half is taken for a BAR of its own. *)
Definition large_ex : attrs :=
  match configure_bar 6 0 0x100000000 true false false (f_attr f_ops0) with
  | Ok s => f_attr (bar_write ep_write 0 (BMem true false) 0x300000000 (with_attr (fun _ => s) f_ops0)) | Err _ => f_attr f_ops0 end.
Theorem C21_large_refuted : exists s l addr, laid_out s 0 l /\ total_slots l = 6 /\
  (exists w, In w (windows 0 l) /\ of_kind false w /\ in_window addr w) /\ match_bar 6 addr false s = Ok None /\
  match_bar 6 0x3 true s = Ok (Some (1, 0)).
Proof.
  exists large_ex, [Some (BMem true false, 32, 0x300000000); None; None; None; None], 0x312345678. split; [props|]. split; [reflexivity|].
  split; [|vm_compute; split; reflexivity]. eexists. split; [left; reflexivity|]. split; [reflexivity|]. cbn. lia.
Qed.

Print Assumptions C22_configured.
Print Assumptions C22_kept.
Print Assumptions C22_reads.
Print Assumptions C22_sizing.
Print Assumptions C22_base.
Print Assumptions C22_probe_partial.
Print Assumptions C22_probe_refuted.
Print Assumptions C21_decode_partial.
Print Assumptions C21_disjoint_partial.
Print Assumptions C21_tlp_partial.
Print Assumptions C21_high_refuted.
Print Assumptions C21_large_refuted.
