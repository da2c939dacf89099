(** C39: parity protection. *)
From Verif Require Import Base ModelFrames SpecParity ProofsParity.

(** Bit [k] is the parity of byte [k], for every word; [parity] does the same for numbers of any length. *)
Theorem C39_dword : forall d, 0 <= dword_parity d < 16 /\ forall k, 0 <= k < 4 -> Z.testbit (dword_parity d) k = byte_parity d k.
Proof. exact dword_parity_ok. Qed.
Theorem C39_parity : forall d, 0 <= d -> exists p, parity d = Ok p /\ 0 <= p /\ forall k, 0 <= k -> Z.testbit p k = byte_parity d k.
Proof. exact parity_ok. Qed.
(** The parity of payload words is inverted (odd parity). *)
Theorem C39_payload : forall l i d k, nth_error l i = Some d -> 0 <= k < 4 -> Z.testbit (nth i (data_parity l) 0) k = negb (byte_parity d k).
Proof. exact data_parity_bits. Qed.
(** Every single bit of a word is an odd flip. *)
Theorem C39_single : forall b, 0 <= b < 32 -> odd_flip (2 ^ b).
Proof. exact odd_flip_pow. Qed.

(** UltraScale: a frame with computed parity passes, flipping an odd number of bits of a byte of any word, or changing any
    parity, makes the check fail. *)
Theorem C39_us : forall f, us_check_parity (us_update_parity f) = true /\
  (us_check_parity f = true ->
   (forall i d e, nth_error (us_data f) i = Some d -> odd_flip e -> us_check_parity (with_us (flip i e (us_data f)) (us_parity f) f) = false) /\
   (forall p, p <> us_parity f -> us_check_parity (with_us (us_data f) p f) = false)).
Proof. intros f. split; [apply us_parity_ok|]. intros H. split; [intros i d e; exact (us_detect f i d e H)|intros p; exact (us_detect_par f p H)]. Qed.
(** Stratix 10 *)
Theorem C39_s10 : forall f, s10_check_parity (s10_update_parity f) = true /\
  (s10_check_parity f = true ->
   (forall i d e, nth_error (s_data f) i = Some d -> odd_flip e -> s10_check_parity (with_s10 (flip i e (s_data f)) (s_parity f) f) = false) /\
   (forall p, p <> s_parity f -> s10_check_parity (with_s10 (s_data f) p f) = false)).
Proof. intros f. split; [apply s10_parity_ok|]. intros H. split; [intros i d e; exact (s10_detect f i d e H)|intros p; exact (s10_detect_par f p H)]. Qed.
(** P-tile: payload, header and prefix. *)
Theorem C39_ptile_update : forall f, 0 <= t_hdr f -> exists f', pt_update_parity f = Ok f' /\ pt_check_parity f' = Ok true /\
  f' = with_pt (t_prfx f) (t_hdr f) (t_data f) (t_prfx_par f') (t_hdr_par f') (t_parity f') f.
Proof. exact pt_parity_ok. Qed.
Theorem C39_ptile : forall f, 0 <= t_hdr f -> pt_check_parity f = Ok true ->
  (forall i d e, nth_error (t_data f) i = Some d -> odd_flip e ->
     pt_check_parity (with_pt (t_prfx f) (t_hdr f) (flip i e (t_data f)) (t_prfx_par f) (t_hdr_par f) (t_parity f) f) = Ok false) /\
  (forall e, 0 <= e -> (exists k, 0 <= k /\ byte_parity e k = true) ->
     pt_check_parity (with_pt (t_prfx f) (Z.lxor (t_hdr f) e) (t_data f) (t_prfx_par f) (t_hdr_par f) (t_parity f) f) = Ok false) /\
  (forall e, odd_flip e ->
     pt_check_parity (with_pt (Z.lxor (t_prfx f) e) (t_hdr f) (t_data f) (t_prfx_par f) (t_hdr_par f) (t_parity f) f) = Ok false) /\
  (forall xp hp p, (xp, hp, p) <> (t_prfx_par f, t_hdr_par f, t_parity f) ->
     pt_check_parity (with_pt (t_prfx f) (t_hdr f) (t_data f) xp hp p f) = Ok false).
Proof.
  intros f H C. split; [intros i d e; exact (pt_detect f i d e C)|]. split; [intros e He; exact (pt_detect_hdr f e H He C)|].
  split; [intros e; exact (pt_detect_prfx f e H C)|intros xp hp p; exact (pt_detect_par f xp hp p H C)].
Qed.
(** Nothing more is detected: an even number of flips in every byte leaves the parity as it is. *)
Theorem C39_even : forall i e l d, nth_error l i = Some d -> (forall k, 0 <= k < 4 -> byte_parity e k = false) -> data_parity (flip i e l) = data_parity l.
Proof. exact data_parity_even. Qed.

Definition us_ex : us_frame := us_update_parity (mkUs [0x12345678; 0x80000001] [] [] 0 0 false 0).
Example C39_us_ex : us_parity us_ex = [0xb; 0x6] /\ us_check_parity us_ex = true /\ flip 1 0x400 (us_data us_ex) = [0x12345678; 0x80000401] /\
  us_check_parity (with_us (flip 1 0x400 (us_data us_ex)) (us_parity us_ex) us_ex) = false /\
  us_check_parity (with_us (us_data us_ex) [0xb; 0x4] us_ex) = false.
Proof. repeat split; vm_compute; reflexivity. Qed.
Definition pt_ex : pt_frame := mkPt 0x10203 0x6000000100000aff0000000100000000 [0xdeadbeef] 6 0x1010 [0xa] 0 None 0 0 0.
Example C39_ptile_ex : pt_update_parity (with_pt (t_prfx pt_ex) (t_hdr pt_ex) (t_data pt_ex) 0 0 [] pt_ex) = Ok pt_ex /\ pt_check_parity pt_ex = Ok true /\
  pt_check_parity (with_pt (t_prfx pt_ex) (Z.lxor (t_hdr pt_ex) (2 ^ 127)) (t_data pt_ex) (t_prfx_par pt_ex) (t_hdr_par pt_ex) (t_parity pt_ex) pt_ex) = Ok false.
Proof. repeat split; vm_compute; reflexivity. Qed.

Print Assumptions C39_dword.
Print Assumptions C39_parity.
Print Assumptions C39_payload.
Print Assumptions C39_single.
Print Assumptions C39_us.
Print Assumptions C39_s10.
Print Assumptions C39_ptile_update.
Print Assumptions C39_ptile.
Print Assumptions C39_even.
