From Verif Require Import Base BaseProofs Bits ModelUtils ModelTlp ModelFrames ModelFunction ModelChan ModelAvst ModelIntel SpecTlp SpecIntel ProofsFields ProofsAvst.

(** ** Reading *)
Lemma rd_rd x o w o' w' : 0 <= o -> 0 <= o' -> 0 <= w' -> o' + w' <= w -> rd (rd x o w) o' w' = rd x (o + o') w'.
Proof.
  intros A B C D. unfold rd. apply Z.bits_inj'. intros i Hi. rewrite !Z.land_spec, !Z.shiftr_spec, Z.land_spec, Z.shiftr_spec by lia.
  destruct (Z.lt_ge_cases i w').
  - rewrite (Z.ones_spec_low w' i), (Z.ones_spec_low w (i + o')) by lia. rewrite !andb_true_r. f_equal. lia.
  - rewrite (Z.ones_spec_high w' i) by lia. rewrite !andb_false_r. reflexivity.
Qed.
Lemma rd_range x o w : 0 <= w -> 0 <= rd x o w < 2 ^ w.
Proof. intros W. unfold rd. rewrite Z.land_ones by lia. apply Z.mod_pos_bound. lia. Qed.
Lemma rd_field x o w : 0 <= o -> 0 <= w -> rd x o w = field x o w.
Proof. intros O W. unfold rd, field. rewrite Z.land_ones, Z.shiftr_div_pow2 by lia. reflexivity. Qed.
Lemma nonzero_bit x o : 0 <= o -> Z.testbit x o = true -> zbool x = true.
Proof. intros O T. unfold zbool. destruct (Z.eqb_spec x 0) as [->|]; [rewrite Z.bits_0 in T; discriminate|reflexivity]. Qed.

(** ** The configuration *)
Record facts (c : in_cfg) : Prop := {
  fa_lns : 1 <= seg_lns c; fa_ig : 1 <= ig c; fa_iw : iw c = 32 * seg_lns c * ig c; fa_sw : seg_width c = 32 * seg_lns c; fa_pw : seg_par_width c = 4 * seg_lns c }.
Lemma good_facts c : good_icfg c -> facts c.
Proof.
  intros [_ (n & N & G & E) _ _]. assert (L : seg_lns c = n).
  { unfold seg_lns. rewrite E. replace (32 * n * ig c) with (n * ig c * 32) by ring. rewrite Z.div_mul by lia. apply Z.div_mul. lia. }
  assert (W : seg_width c = 32 * n) by (unfold seg_width; rewrite E; apply Z.div_mul; lia).
  constructor; rewrite ?L; try assumption. unfold seg_par_width. rewrite W. replace (32 * n) with (4 * n * 8) by ring. apply Z.div_mul. lia.
Qed.
(** every signal is an array of fields of one width *)
Definition str (c : in_cfg) (s : sig) : Z :=
  match s with
  | SData => 32 | SPar => 4 | SSop | SEop | SValid | SErr | SVfa => 1 | SEmpty => empty_width c | SBar | SFunc => 3 | SVfn => 11
  | SHdr => 128 | SPrfx => 32 | SHdrPar => 16 | SPrfxPar => 4
  end.
Definition perlane (s : sig) : bool := match s with SData | SPar => true | _ => false end.
(** the first index of segment [a] *)
Definition lo (c : in_cfg) (s : sig) (a : Z) : Z := if perlane s then a * seg_lns c else a.
Lemma bit_length_nonneg v : 0 <= bit_length v.
Proof. unfold bit_length. destruct (v =? 0); [lia|]. pose proof (Z.log2_nonneg (Z.abs v)). lia. Qed.
Lemma str_nonneg c s : 0 <= str c s.
Proof. destruct s; cbn; try lia. apply bit_length_nonneg. Qed.
Lemma bit_length_bound v w : 0 <= v <= w -> v < 2 ^ bit_length w.
Proof.
  intros H. unfold bit_length. destruct (Z.eqb_spec w 0) as [->|N]; [cbn; lia|]. rewrite Z.abs_eq by lia.
  destruct (Z.log2_spec w) as (_ & U); [lia|]. change (Z.succ (Z.log2 w)) with (Z.log2 w + 1) in U. lia.
Qed.
Lemma width_spec c s : facts c -> bus_width c s = (if sig_eq_dec s SFunc then match dv c with HTile => 2 | PTile => 3 end else str c s) * lo c s (ig c).
Proof.
  intros [F1 F2 F3 F4 F5]. unfold lo. destruct s; cbn [bus_width perlane str sig_eq_dec]; rewrite ?F4; try (destruct (sig_eq_dec _ _) as [X|X]; try discriminate X; try congruence); try lia; try (destruct (dv c); lia).
Qed.

(** ** Writes *)
Definition wr := (sig * Z * Z)%type.
Definition put1 (c : in_cfg) (b : ibeat) (w : wr) : ibeat := let '(s, i, v) := w in or_sig s v (i * str c s) b.
Definition put (c : in_cfg) (ws : list wr) (b : ibeat) : ibeat := fold_left (put1 c) ws b.
Definition hit (s : sig) (i : Z) (w : wr) : Z := let '(s', i', v) := w in if sig_eq_dec s' s then if i' =? i then v else 0 else 0.
Definition look (s : sig) (i : Z) (ws : list wr) : Z := fold_right (fun w a => Z.lor (hit s i w) a) 0 ws.
Definition at_sig (c : in_cfg) (b : ibeat) (s : sig) (i : Z) : Z := rd (b s) (i * str c s) (str c s).
Definition wok (c : in_cfg) (w : wr) : Prop := let '(s, i, v) := w in has c s = true -> 0 <= i /\ 0 <= v < 2 ^ str c s.
Lemma look_app s i a b : look s i (a ++ b) = Z.lor (look s i a) (look s i b).
Proof. unfold look. induction a as [|p a IH]; cbn [app fold_right]; [rewrite Z.lor_0_l; reflexivity|]. rewrite IH, Z.lor_assoc. reflexivity. Qed.
Lemma put_app c a b x : put c (a ++ b) x = put c b (put c a x).
Proof. unfold put. apply fold_left_app. Qed.
Lemma at_put c ws : Forall (wok c) ws -> forall b s i, has c s = true -> 0 <= i -> at_sig c (put c ws b) s i = Z.lor (at_sig c b s i) (look s i ws).
Proof.
  induction 1 as [|w ws W Ws IH]; intros b s i H I.
  - cbn. rewrite Z.lor_0_r. reflexivity.
  - unfold put in *. cbn [fold_left look fold_right]. fold (look s i ws). rewrite IH by assumption. rewrite Z.lor_assoc. f_equal. destruct w as ((s' & i') & v). cbn [put1 hit wok] in *.
    unfold at_sig, or_sig. destruct (sig_eq_dec s' s) as [->|N]; [|rewrite Z.lor_0_r; reflexivity]. destruct (W H) as (I' & V). rewrite rd_lor. f_equal. pose proof (str_nonneg c s).
    destruct (Z.eqb_spec i' i) as [->|N]; [apply rd_same; try assumption; nia|]. apply rd_disjoint with (w := str c s); try assumption; try nia.
Qed.
Definition wfit (c : in_cfg) (w : wr) : Prop := let '(s, i, v) := w in has c s = true -> 0 <= Z.shiftl v (i * str c s) < 2 ^ bus_width c s.
Definition fits_bus (c : in_cfg) (b : ibeat) : Prop := forall s, has c s = true -> 0 <= b s < 2 ^ bus_width c s.
Lemma width_nonneg c s : facts c -> 0 <= bus_width c s.
Proof. intros F. rewrite width_spec by exact F. pose proof (str_nonneg c s). destruct F as [F1 F2 _ _ _]. unfold lo. destruct (perlane s), (sig_eq_dec s SFunc), (dv c); nia. Qed.
Lemma fits_put c ws : facts c -> Forall (wfit c) ws -> forall b, fits_bus c b -> fits_bus c (put c ws b).
Proof.
  intros Fa. induction 1 as [|w ws W Ws IH]; intros b Hb; [exact Hb|]. unfold put in *. cbn [fold_left]. apply IH. intros s Hs. destruct w as ((s' & i') & v). cbn [put1 wfit] in *. unfold or_sig.
  destruct (sig_eq_dec s' s) as [->|N]; [|apply Hb; exact Hs]. apply lor_range; [apply width_nonneg; exact Fa|apply Hb; exact Hs|apply W; exact Hs].
Qed.

(** ** What a segment writes *)
Fixpoint lane_w (c : in_cfg) (f : pt_frame) (seg : Z) (n : nat) (k off : Z) : list wr :=
  match n with
  | O => []
  | S n => (SData, k + seg * seg_lns c, nth (Z.to_nat off) (t_data f) 0) :: (SPar, k + seg * seg_lns c, nth (Z.to_nat off) (t_parity f) 0) :: lane_w c f seg n (k + 1) (off + 1)
  end.
Definition first_w (c : in_cfg) (f : pt_frame) (seg : Z) : list wr :=
  [(SValid, seg, 1); (SSop, seg, 1)] ++
  match dv c with HTile => [] | PTile => [(SHdr, seg, t_hdr f); (SPrfx, seg, t_prfx f); (SHdrPar, seg, t_hdr_par f); (SPrfxPar, seg, t_prfx_par f)] end.
Definition meta_w (f : pt_frame) (seg : Z) : list wr :=
  [(SBar, seg, t_bar f); (SFunc, seg, t_func f)] ++ match t_vf f with Some v => [(SVfa, seg, 1); (SVfn, seg, v)] | None => [] end ++ [(SErr, seg, t_err f)].
Definition chunk (c : in_cfg) (f : pt_frame) (off : Z) : nat := Z.to_nat (Z.min (seg_lns c) (zlen (t_data f) - off)).
Definition last_empty (c : in_cfg) (n : nat) : Z := if Nat.eqb n 0 then 0 else seg_lns c - Z.of_nat n.
Definition mid_w (c : in_cfg) (f : pt_frame) (off seg : Z) : list wr := if zlen (t_data f) =? 0 then [] else (SValid, seg, 1) :: lane_w c f seg (chunk c f off) 0 off.
Definition end_w (c : in_cfg) (f : pt_frame) (off seg : Z) : list wr :=
  if off + Z.of_nat (chunk c f off) >=? zlen (t_data f) then [(SEop, seg, 1); (SEmpty, seg, last_empty c (chunk c f off))] else [].
Definition seg_w (c : in_cfg) (f : pt_frame) (off : Z) (first : bool) (seg : Z) : list wr :=
  (if first then first_w c f seg else []) ++ meta_w f seg ++ mid_w c f off seg ++ end_w c f off seg.
Lemma nth_zidx l i : 0 <= i < zlen l -> zidx l i = Ok (nth (Z.to_nat i) l 0).
Proof. intros H. unfold zidx. rewrite (nth_error_nth' l 0) by (unfold zlen in H; lia). reflexivity. Qed.
Lemma isrc_lanes_w c f seg : length (t_parity f) = length (t_data f) -> forall n k b off e, 0 <= off -> off + Z.of_nat n <= zlen (t_data f) ->
  isrc_lanes c f seg n k b off e = Ok (put c (lane_w c f seg n k off) b, off + Z.of_nat n, if Nat.eqb n 0 then e else seg_lns c - (k + Z.of_nat n)).
Proof.
  intros PL. induction n as [|n IH]; intros k b off e H0 H1; cbn [isrc_lanes].
  - rewrite Z.add_0_r. reflexivity.
  - assert (ZL : zlen (t_parity f) = zlen (t_data f)) by (unfold zlen; lia). rewrite !nth_zidx by lia. cbn [bind]. rewrite IH by lia. cbn [lane_w]. unfold put. cbn [fold_left put1 str].
    rewrite (Z.mul_comm 4), (Z.mul_comm 32). f_equal. f_equal; [f_equal; lia|]. destruct n; cbn [Nat.eqb]; lia.
Qed.
Lemma first_put c f seg b : isrc_first c f seg b = put c (first_w c f seg) b.
Proof. unfold isrc_first, first_w, put. destruct (dv c); cbn [app fold_left put1 str]; rewrite ?Z.mul_1_r; reflexivity. Qed.
Lemma meta_put c f seg b : isrc_meta f seg b = put c (meta_w f seg) b.
Proof. unfold isrc_meta, meta_w, put. destruct (t_vf f); cbn [app fold_left put1 str]; rewrite ?Z.mul_1_r; reflexivity. Qed.
Lemma isrc_step c seg segs cur q f off first q' b : facts c -> isrc_next cur q = Some (f, off, first, q') -> length (t_parity f) = length (t_data f) -> 0 <= off <= zlen (t_data f) ->
  isrc_segs c (seg :: segs) cur q b =
  isrc_segs c segs (if off + Z.of_nat (chunk c f off) >=? zlen (t_data f) then None else Some (f, off + Z.of_nat (chunk c f off), false)) q' (put c (seg_w c f off first seg) b).
Proof.
  intros Fa E PL Ho. cbn [isrc_segs]. rewrite E. set (b1 := if first then isrc_first c f seg b else b). rewrite (meta_put c f seg b1). set (b2 := put c (meta_w f seg) b1).
  assert (B2 : b2 = put c ((if first then first_w c f seg else []) ++ meta_w f seg) b). { unfold b2, b1. rewrite put_app. f_equal. destruct first; [rewrite first_put; reflexivity|reflexivity]. }
  pose proof (zlen_nonneg (t_data f)) as ZN. pose proof (fa_lns _ Fa) as SL.
  assert (CH : Z.of_nat (chunk c f off) = Z.min (seg_lns c) (zlen (t_data f) - off)) by (unfold chunk; lia).
  assert (MID : (if zlen (t_data f) =? 0 then Ok (b2, off, 0)
        else isrc_lanes c f seg (Z.to_nat (Z.min (seg_lns c) (zlen (t_data f) - off))) 0 (or_sig SValid 1 seg b2) off 0) =
     Ok (put c (mid_w c f off seg) b2, off + Z.of_nat (chunk c f off), last_empty c (chunk c f off))).
  { unfold mid_w. destruct (Z.eqb_spec (zlen (t_data f)) 0) as [Z0|Z0].
    - assert (C0 : chunk c f off = O) by lia. rewrite C0. cbn. rewrite Z.add_0_r. reflexivity.
    - fold (chunk c f off). rewrite isrc_lanes_w by (try exact PL; lia). unfold put. cbn [fold_left put1 str]. rewrite Z.mul_1_r. reflexivity. }
  rewrite MID. cbn [bind]. clear MID. unfold seg_w. clearbody b2. subst b2. rewrite !put_app. unfold end_w. destruct (off + Z.of_nat (chunk c f off) >=? zlen (t_data f)); [|reflexivity].
  f_equal. cbn [put fold_left put1 str]. rewrite Z.mul_1_r. reflexivity.
Qed.

(** ** The writes of a good frame fit *)
Lemma shift_fit v w i n : 0 <= w -> 0 <= v < 2 ^ w -> 0 <= i < n -> 0 <= Z.shiftl v (i * w) < 2 ^ (w * n).
Proof.
  intros W V I. rewrite Z.shiftl_mul_pow2 by nia. split; [nia|]. apply Z.lt_le_trans with (2 ^ w * 2 ^ (i * w)); [nia|]. rewrite <- Z.pow_add_r by nia. apply Z.pow_le_mono_r; nia.
Qed.
Lemma wr_fit c s i v : facts c -> s <> SFunc \/ dv c = PTile -> (has c s = true -> 0 <= v < 2 ^ str c s) -> 0 <= i < lo c s (ig c) -> wok c (s, i, v) /\ wfit c (s, i, v).
Proof.
  intros Fa D V I. split; intros H; [split; [lia|apply V; exact H]|]. rewrite width_spec by exact Fa.
  replace (if sig_eq_dec s SFunc then match dv c with HTile => 2 | PTile => 3 end else str c s) with (str c s).
  - apply shift_fit; [apply str_nonneg|apply V; exact H|exact I].
  - destruct (sig_eq_dec s SFunc) as [->|]; [|reflexivity]. destruct D as [D| ->]; [contradiction|reflexivity].
Qed.
Lemma func_fit c f i : good_iframe c f -> facts c -> 0 <= i < ig c -> wok c (SFunc, i, t_func f) /\ wfit c (SFunc, i, t_func f).
Proof.
  intros G Fa I. pose proof (if_func _ _ G) as H. destruct (dv c) eqn:D.
  - split; intros Hs; specialize (H Hs).
    + split; [lia|]. change (2 ^ str c SFunc) with 8. destruct (ig c =? 1), (ig c =? 2); lia.
    + rewrite width_spec by exact Fa. change (if sig_eq_dec SFunc SFunc then match dv c with HTile => 2 | PTile => 3 end else str c SFunc) with (match dv c with HTile => 2 | PTile => 3 end). rewrite D. change (lo c SFunc (ig c)) with (ig c). change (str c SFunc) with 3.
      destruct (Z.eqb_spec (ig c) 1) as [E|E].
      { rewrite E. replace i with 0 by lia. change (2 ^ (2 * 1)) with 4. change (0 * 3) with 0. rewrite Z.shiftl_0_r. lia. }
      destruct (Z.eqb_spec (ig c) 2) as [E2|E2].
      { rewrite E2 in *. change (2 ^ (2 * 2)) with 16. assert (X : i = 0 \/ i = 1) by lia. destruct X as [-> | ->]; [change (0 * 3) with 0; rewrite Z.shiftl_0_r; lia|]. change (1 * 3) with 3. rewrite Z.shiftl_mul_pow2 by lia. lia. }
      replace (t_func f) with 0 by lia. rewrite Z.shiftl_0_l. split; [lia|]. apply Z.pow_pos_nonneg; lia.
  - apply wr_fit; [exact Fa|right; exact D|intros Hs; specialize (H Hs); exact H|exact I].
Qed.
Lemma nth_range (P : Z -> Prop) l i : Forall P l -> (i < length l)%nat -> P (nth i l 0).
Proof. intros F L. rewrite Forall_forall in F. apply F, nth_In, L. Qed.
Lemma lane_w_fit c f seg : good_iframe c f -> facts c -> 0 <= seg < ig c -> forall n k off, 0 <= k -> k + Z.of_nat n <= seg_lns c -> 0 <= off -> off + Z.of_nat n <= zlen (t_data f) ->
  Forall (fun w => wok c w /\ wfit c w) (lane_w c f seg n k off).
Proof.
  intros G Fa S. pose proof (if_par_len _ _ G) as PL. induction n as [|n IH]; intros k off K0 K1 O0 O1; cbn [lane_w]; [constructor|]. unfold zlen in *.
  assert (R : 0 <= k + seg * seg_lns c < ig c * seg_lns c) by (pose proof (fa_lns _ Fa); nia).
  apply Forall_cons; [|apply Forall_cons; [|apply IH; lia]].
  - apply wr_fit; [exact Fa|left; discriminate| |exact R]. intros _. change (2 ^ str c SData) with (2 ^ 32). apply (nth_range (fun d => 0 <= d < 2 ^ 32)); [apply (if_data _ _ G)|lia].
  - apply wr_fit; [exact Fa|left; discriminate| |exact R]. intros H. change (2 ^ str c SPar) with 16. apply (nth_range (fun d => 0 <= d < 16)); [apply (if_par _ _ G H)|lia].
Qed.
Lemma chunk_eq c f off : facts c -> 0 <= off <= zlen (t_data f) -> Z.of_nat (chunk c f off) = Z.min (seg_lns c) (zlen (t_data f) - off).
Proof. intros Fa H. pose proof (fa_lns _ Fa). unfold chunk. lia. Qed.
Lemma seg_w_fit c f off first seg : good_iframe c f -> facts c -> 0 <= seg < ig c -> 0 <= off <= zlen (t_data f) -> Forall (fun w => wok c w /\ wfit c w) (seg_w c f off first seg).
Proof.
  intros G Fa Hs Ho. pose proof (chunk_eq c f off Fa Ho) as CH. pose proof (fa_lns _ Fa) as SL.
  assert (ONE : forall s, str c s = 1 -> perlane s = false -> wok c (s, seg, 1) /\ wfit c (s, seg, 1)).
  { intros s E P. apply wr_fit; [exact Fa|left; intros ->; discriminate E|rewrite E; intros _; cbn; lia|]. unfold lo. rewrite P. exact Hs. }
  unfold seg_w. apply Forall_app. split; [|apply Forall_app; split; [|apply Forall_app; split]].
  - destruct first; [|constructor]. unfold first_w. apply Forall_cons; [apply ONE; reflexivity|]. apply Forall_cons; [apply ONE; reflexivity|]. pose proof (if_hdr _ _ G) as HH. destruct (dv c) eqn:D; [constructor|].
    destruct HH as (H1 & H2 & H3 & H4). repeat apply Forall_cons; try apply Forall_nil; (apply wr_fit; [exact Fa|left; discriminate| |exact Hs]); intros X; [exact H1|exact H2|apply (H3 X)|apply (H4 X)].
  - unfold meta_w. apply Forall_cons; [apply wr_fit; [exact Fa|left; discriminate|apply (if_bar _ _ G)|exact Hs]|]. apply Forall_cons; [apply func_fit; assumption|]. apply Forall_app. split.
    + pose proof (if_vf _ _ G) as V. destruct (t_vf f) as [v|]; [|constructor]. apply Forall_cons; [apply ONE; reflexivity|]. apply Forall_cons; [|constructor]. apply wr_fit; [exact Fa|left; discriminate|exact V|exact Hs].
    + apply Forall_cons; [|constructor]. apply wr_fit; [exact Fa|left; discriminate|apply (if_err _ _ G)|exact Hs].
  - unfold mid_w. destruct (Z.eqb_spec (zlen (t_data f)) 0); [constructor|]. apply Forall_cons; [apply ONE; reflexivity|]. apply lane_w_fit; try assumption; lia.
  - unfold end_w. destruct (off + Z.of_nat (chunk c f off) >=? zlen (t_data f)); [|constructor]. apply Forall_cons; [apply ONE; reflexivity|]. apply Forall_cons; [|constructor]. apply wr_fit; [exact Fa|left; discriminate| |exact Hs]. intros _.
    cbn [str]. unfold last_empty. destruct (Nat.eqb_spec (chunk c f off) 0).
    + split; [lia|]. apply Z.pow_pos_nonneg; [lia|apply bit_length_nonneg].
    + split; [lia|]. apply bit_length_bound. lia.
Qed.

(** ** What they say *)
Lemma lane_look_other c f seg s i : s <> SData -> s <> SPar -> forall n k off, look s i (lane_w c f seg n k off) = 0.
Proof.
  intros A B. induction n as [|n IH]; intros k off; [reflexivity|]. cbn [lane_w look fold_right hit]. fold (look s i (lane_w c f seg n (k + 1) (off + 1))). rewrite IH.
  destruct (sig_eq_dec SData s); [congruence|]. destruct (sig_eq_dec SPar s); [congruence|]. reflexivity.
Qed.
Lemma lane_look c f seg s i : s = SData \/ s = SPar -> forall n k off, 0 <= off ->
  look s i (lane_w c f seg n k off) = if (k + seg * seg_lns c <=? i) && (i <? k + seg * seg_lns c + Z.of_nat n) then nth (Z.to_nat (off + (i - (k + seg * seg_lns c)))) (match s with SData => t_data f | _ => t_parity f end) 0 else 0.
Proof.
  intros A. induction n as [|n IH]; intros k off O0.
  - cbn [lane_w look fold_right]. destruct (_ && _) eqn:E; [lia|reflexivity].
  - cbn [lane_w look fold_right hit]. fold (look s i (lane_w c f seg n (k + 1) (off + 1))). rewrite IH by lia.
    destruct (Z.eqb_spec (k + seg * seg_lns c) i) as [E|E].
    + replace (_ && _) with false by lia. replace ((k + seg * seg_lns c <=? i) && (i <? k + seg * seg_lns c + Z.of_nat (S n))) with true by lia. replace (off + (i - (k + seg * seg_lns c))) with off by lia.
      destruct A as [-> | ->]; cbn; rewrite ?Z.lor_0_r; reflexivity.
    + replace ((k + seg * seg_lns c <=? i) && (i <? k + seg * seg_lns c + Z.of_nat (S n))) with ((k + 1 + seg * seg_lns c <=? i) && (i <? k + 1 + seg * seg_lns c + Z.of_nat n)) by lia.
      replace (off + 1 + (i - (k + 1 + seg * seg_lns c))) with (off + (i - (k + seg * seg_lns c))) by lia. destruct (sig_eq_dec SData s), (sig_eq_dec SPar s); rewrite ?Z.lor_0_l; reflexivity.
Qed.
Lemma hit_other s i s' i' v : s' <> s \/ i' <> i -> hit s i (s', i', v) = 0.
Proof. intros H. cbn [hit]. destruct (sig_eq_dec s' s); [|reflexivity]. destruct (Z.eqb_spec i' i); [|reflexivity]. tauto. Qed.
(** nothing is written outside the segment *)
Lemma look_none s i ws : (forall w, In w ws -> hit s i w = 0) -> look s i ws = 0.
Proof. intros H. unfold look. induction ws as [|w ws IH]; [reflexivity|]. cbn [fold_right]. rewrite IH by (intros x X; apply H; right; exact X). rewrite (H w) by (left; reflexivity). reflexivity. Qed.
Lemma lane_w_in c f seg w : forall n k off, In w (lane_w c f seg n k off) -> exists s i v, w = (s, i, v) /\ perlane s = true /\ k + seg * seg_lns c <= i < k + seg * seg_lns c + Z.of_nat n.
Proof.
  induction n as [|n IH]; intros k off H; [contradiction|]. cbn [lane_w] in H. destruct H as [<-|[<-|H]]; [do 3 eexists; split; [reflexivity|split; [reflexivity|lia]]..|].
  destruct (IH _ _ H) as (s & i & v & -> & P & R). exists s, i, v. split; [reflexivity|]. split; [exact P|lia].
Qed.
Lemma seg_w_in c f off first seg w : facts c -> 0 <= off <= zlen (t_data f) -> In w (seg_w c f off first seg) -> exists s i v, w = (s, i, v) /\ lo c s seg <= i < lo c s (seg + 1).
Proof.
  intros Fa Ho H. assert (AT : forall s (v : Z), perlane s = false -> exists s' i v', (s, seg, v) = (s', i, v') /\ lo c s' seg <= i < lo c s' (seg + 1)).
  { intros s v P. exists s, seg, v. split; [reflexivity|]. unfold lo. rewrite P. lia. }
  unfold seg_w in H. rewrite !in_app_iff in H. destruct H as [H|[H|[H|H]]].
  - destruct first; [|contradiction]. unfold first_w in H. apply in_app_iff in H. destruct H as [H|H]; [|destruct (dv c); [contradiction|]]; cbn in H; decompose [or] H; subst; try contradiction; apply AT; reflexivity.
  - unfold meta_w in H. rewrite !in_app_iff in H. destruct H as [H|[H|H]]; [| destruct (t_vf f); [|contradiction] |]; cbn in H; decompose [or] H; subst; try contradiction; apply AT; reflexivity.
  - unfold mid_w in H. destruct (zlen (t_data f) =? 0); [contradiction|]. destruct H as [<-|H]; [apply AT; reflexivity|]. apply lane_w_in in H. destruct H as (s & i & v & -> & P & R). exists s, i, v. split; [reflexivity|]. unfold lo. rewrite P.
    pose proof (chunk_eq c f off Fa Ho). lia.
  - unfold end_w in H. destruct (_ >=? _); [|contradiction]. cbn in H. decompose [or] H; subst; try contradiction; apply AT; reflexivity.
Qed.
Lemma look_outside c f off first seg s i : facts c -> 0 <= off <= zlen (t_data f) -> ~ lo c s seg <= i < lo c s (seg + 1) -> look s i (seg_w c f off first seg) = 0.
Proof.
  intros Fa Ho N. apply look_none. intros w W. destruct (seg_w_in _ _ _ _ _ _ Fa Ho W) as (s' & i' & v & -> & R). apply hit_other. destruct (sig_eq_dec s' s) as [->|]; [right; intros ->; tauto|left; assumption].
Qed.
Definition told (c : in_cfg) (f : pt_frame) (off : Z) (first : bool) (s : sig) : Z :=
  match s with
  | SValid => 1
  | SSop => if first then 1 else 0
  | SEop => if off + Z.of_nat (chunk c f off) >=? zlen (t_data f) then 1 else 0
  | SBar => t_bar f
  | SFunc => t_func f
  | SVfa => match t_vf f with Some _ => 1 | None => 0 end
  | SVfn => match t_vf f with Some v => v | None => 0 end
  | SErr => t_err f
  | SHdr => if first then match dv c with PTile => t_hdr f | HTile => 0 end else 0
  | SPrfx => if first then match dv c with PTile => t_prfx f | HTile => 0 end else 0
  | SHdrPar => if first then match dv c with PTile => t_hdr_par f | HTile => 0 end else 0
  | SPrfxPar => if first then match dv c with PTile => t_prfx_par f | HTile => 0 end else 0
  | _ => 0
  end.
Lemma seg_look c f off first seg s : s <> SData -> s <> SPar -> s <> SEmpty -> first = true \/ t_data f <> [] -> look s seg (seg_w c f off first seg) = told c f off first s.
Proof.
  intros A B E V. unfold seg_w. rewrite !look_app.
  assert (M : look s seg (mid_w c f off seg) = (if zlen (t_data f) =? 0 then 0 else match s with SValid => 1 | _ => 0 end)).
  { unfold mid_w. destruct (zlen (t_data f) =? 0); [reflexivity|]. cbn [look fold_right hit]. fold (look s seg (lane_w c f seg (chunk c f off) 0 off)). rewrite lane_look_other by assumption. rewrite Z.eqb_refl. destruct s; reflexivity. }
  rewrite M. clear M. assert (NE : first = false -> (zlen (t_data f) =? 0) = false) by (intros ->; destruct V as [V|V]; [discriminate|]; destruct (t_data f); [contradiction|reflexivity]).
  unfold told, first_w, meta_w, end_w. destruct s; try contradiction; destruct (t_vf f), (dv c), first, (off + Z.of_nat (chunk c f off) >=? zlen (t_data f)); try (rewrite (NE eq_refl)); destruct (zlen (t_data f) =? 0); cbn; rewrite ?Z.eqb_refl, ?Z.lor_0_r, ?Z.lor_0_l; reflexivity.
Qed.
Lemma seg_look_lane c f off first seg s k : facts c -> s = SData \/ s = SPar -> 0 <= off <= zlen (t_data f) -> 0 <= k < Z.of_nat (chunk c f off) ->
  look s (k + seg * seg_lns c) (seg_w c f off first seg) = nth (Z.to_nat (off + k)) (match s with SData => t_data f | _ => t_parity f end) 0.
Proof.
  intros Fa A Ho K. pose proof (chunk_eq c f off Fa Ho) as CH. unfold seg_w. rewrite !look_app.
  assert (F1 : look s (k + seg * seg_lns c) (if first then first_w c f seg else []) = 0) by (destruct A as [-> | ->], first, (dv c) eqn:D; unfold first_w; try rewrite D; reflexivity).
  assert (F2 : look s (k + seg * seg_lns c) (meta_w f seg) = 0) by (destruct A as [-> | ->]; unfold meta_w; destruct (t_vf f); reflexivity).
  assert (F3 : look s (k + seg * seg_lns c) (end_w c f off seg) = 0) by (unfold end_w; destruct A as [-> | ->], (_ >=? _); reflexivity).
  rewrite F1, F2, F3, Z.lor_0_r, !Z.lor_0_l. unfold mid_w. destruct (Z.eqb_spec (zlen (t_data f)) 0); [lia|]. cbn [look fold_right]. rewrite hit_other by (destruct A as [-> | ->]; left; discriminate). rewrite Z.lor_0_l. fold (look s (k + seg * seg_lns c) (lane_w c f seg (chunk c f off) 0 off)).
  rewrite lane_look by (try exact A; lia). replace (_ && _) with true by lia. do 2 f_equal. lia.
Qed.

(** ** The sink, segment by segment *)
Definition part (c : in_cfg) (f : pt_frame) (off : Z) : pt_frame :=
  let g := carried_iframe c f in
  mkPt (t_prfx g) (t_hdr g) (firstn (Z.to_nat off) (t_data g)) (t_prfx_par g) (t_hdr_par g) (firstn (Z.to_nat off) (t_parity g)) (t_func g) (t_vf g) (t_bar g) (t_abort g) (t_err g).
Lemma part_all c f : length (t_parity f) = length (t_data f) -> part c f (zlen (t_data f)) = carried_iframe c f.
Proof.
  intros P. unfold part, carried_iframe. cbn [t_prfx t_hdr t_data t_prfx_par t_hdr_par t_parity t_func t_vf t_bar t_abort t_err]. unfold zlen. rewrite Nat2Z.id, firstn_all. rewrite (firstn_all2 (n := length (t_data f))) by (rewrite map_length; lia). reflexivity.
Qed.
(** [b] shows the sink what the source put for this segment *)
Record shows (c : in_cfg) (b : ibeat) (f : pt_frame) (off : Z) (first : bool) (seg : Z) : Prop := {
  sh_one : forall s, perlane s = false -> s <> SEmpty -> at_sig c b s seg = if has c s then told c f off first s else 0;
  sh_data : forall k, 0 <= k < Z.of_nat (chunk c f off) -> at_sig c b SData (k + seg * seg_lns c) = nth (Z.to_nat (off + k)) (t_data f) 0;
  sh_par : forall k, 0 <= k < Z.of_nat (chunk c f off) -> at_sig c b SPar (k + seg * seg_lns c) = if has c SPar then nth (Z.to_nat (off + k)) (t_parity f) 0 else 0 }.
Lemma ibit_at c b s seg : 0 <= seg -> str c s = 1 -> ibit b s seg = (at_sig c b s seg =? 1).
Proof. intros H E. unfold ibit, at_sig. rewrite land_pow by lia. rewrite E, Z.mul_1_r, rd_bit by lia. destruct (Z.testbit (b s) seg); reflexivity. Qed.
Lemma seg_field c b s seg k w : facts c -> 0 <= seg -> 0 <= k < seg_lns c -> str c s = w -> 0 < w ->
  Z.land (Z.shiftr (Z.land (Z.shiftr (b s) (seg * (w * seg_lns c))) (2 ^ (w * seg_lns c) - 1)) (w * k)) (Z.ones w) = at_sig c b s (k + seg * seg_lns c).
Proof.
  intros Fa S0 K E W. pose proof (fa_lns _ Fa). replace (2 ^ (w * seg_lns c) - 1) with (Z.ones (w * seg_lns c)) by (rewrite Z.ones_equiv; lia).
  change (rd (rd (b s) (seg * (w * seg_lns c)) (w * seg_lns c)) (w * k) w = at_sig c b s (k + seg * seg_lns c)). rewrite rd_rd by nia. unfold at_sig. rewrite E. f_equal. lia.
Qed.
Lemma map_nth_firstn {A} (d : A) l (off n : nat) : (off + n <= length l)%nat -> map (fun k => nth (off + k) l d) (List.seq 0 n) = firstn n (skipn off l).
Proof.
  revert l off. induction n as [|n IH]; intros l off H; [reflexivity|]. assert (X : exists x r, skipn off l = x :: r) by (destruct (skipn off l) eqn:E; [apply (f_equal (@length A)) in E; rewrite skipn_length in E; cbn in E; lia|eauto]).
  destruct X as (x & r & E). cbn [List.seq map]. rewrite E. cbn [firstn]. f_equal.
  - rewrite Nat.add_0_r. rewrite <- (firstn_skipn off l) at 1. rewrite app_nth2 by (rewrite firstn_length; lia). rewrite firstn_length, Nat.min_l, Nat.sub_diag by lia. rewrite E. reflexivity.
  - assert (R : r = skipn (S off) l). { apply (f_equal (@tl A)) in E. cbn [tl] in E. rewrite <- E. clear. revert l. induction off as [|o IH]; intros [|y l]; try reflexivity. exact (IH l). }
    rewrite R, <- IH by lia. rewrite <- seq_shift, map_map. apply map_ext. intros k. f_equal. lia.
Qed.
Lemma firstn_more {A} (l : list A) a n : firstn a l ++ firstn n (skipn a l) = firstn (a + n) l.
Proof. revert l. induction a as [|a IH]; intros [|x l]; cbn [firstn skipn app Nat.add]; try reflexivity; [destruct n; reflexivity|rewrite IH; reflexivity]. Qed.
Lemma new_part c b f seg : good_iframe c f -> facts c -> 0 <= seg -> (dv c = PTile -> has c SHdr = true /\ has c SPrfx = true) -> shows c b f 0 true seg -> isink_new c b seg = part c f 0.
Proof.
  intros G Fa S0 HP Sh. unfold isink_new. rewrite (ibit_at c) by (try exact S0; reflexivity).
  assert (R : forall s w m, str c s = w -> m = Z.ones w -> perlane s = false -> s <> SEmpty -> ifield b s (seg * w) m = if has c s then told c f 0 true s else 0).
  { intros s w m E -> P N. rewrite <- (sh_one _ _ _ _ _ _ Sh s P N). unfold ifield, at_sig, rd. rewrite E. reflexivity. }
  rewrite (R SBar 3), (R SFunc 3), (R SVfn 11) by (reflexivity || discriminate). replace (ifield b SErr seg 1) with (ifield b SErr (seg * 1) 1) by (rewrite Z.mul_1_r; reflexivity). rewrite (R SErr 1) by (reflexivity || discriminate).
  rewrite (sh_one _ _ _ _ _ _ Sh SVfa) by (reflexivity || discriminate). cbn [told].
  assert (VF : (if (if has c SVfa then match t_vf f with Some _ => 1 | None => 0 end else 0) =? 1 then Some (if has c SVfn then match t_vf f with Some v => v | None => 0 end else 0) else None) =
    (if has c SVfa then match t_vf f with Some v => Some (if has c SVfn then v else 0) | None => None end else None)) by (destruct (has c SVfa), (t_vf f); reflexivity).
  rewrite VF. unfold part, carried_iframe. cbn [t_prfx t_hdr t_data t_prfx_par t_hdr_par t_parity t_func t_vf t_bar t_abort t_err Z.to_nat firstn]. pose proof (if_hdr _ _ G) as HH. destruct (dv c) eqn:D.
  - destruct HH as (-> & -> & -> & ->). destruct (has c SPrfxPar), (has c SHdrPar); reflexivity.
  - destruct (HP eq_refl) as (HP1 & HP2). rewrite (R SPrfx 32), (R SHdr 128), (R SPrfxPar 4), (R SHdrPar 16) by (reflexivity || discriminate). cbn [told]. rewrite D, HP1, HP2. reflexivity.
Qed.
Lemma count_start c b f seg : good_iframe c f -> facts c -> 0 <= seg -> (dv c = PTile -> has c SHdr = true) -> shows c b f 0 true seg -> isink_count c b seg = zlen (t_data f).
Proof.
  intros G Fa S0 HP Sh. rewrite (if_len _ _ G). unfold isink_count. pose proof (fa_lns _ Fa) as SL. destruct (dv c) eqn:D.
  - assert (NE : t_data f <> []). { intros E. pose proof (if_len _ _ G) as L. rewrite D, E in L. cbn in L. discriminate L. }
    assert (H0 : rd (b SData) (seg * seg_width c) 32 = hd 0 (t_data f)).
    { pose proof (sh_data _ _ _ _ _ _ Sh 0) as X. unfold at_sig in X. cbn [str] in X. rewrite (fa_sw _ Fa). replace (seg * (32 * seg_lns c)) with ((0 + seg * seg_lns c) * 32) by lia. rewrite X.
      - destruct (t_data f); reflexivity.
      - rewrite chunk_eq by (try exact Fa; pose proof (zlen_nonneg (t_data f)); lia). destruct (t_data f) as [|x l]; [contradiction|]. rewrite zlen_cons. pose proof (zlen_nonneg l). lia. }
    unfold ifield. replace (2 ^ seg_width c - 1) with (Z.ones (seg_width c)) by (rewrite Z.ones_equiv; lia). set (x := b SData) in *. set (o := seg * seg_width c) in *.
    assert (O0 : 0 <= o) by (unfold o; rewrite (fa_sw _ Fa); nia). assert (W0 : 32 <= seg_width c) by (rewrite (fa_sw _ Fa); lia).
    change (Z.land (Z.shiftr x o) (Z.ones (seg_width c))) with (rd x o (seg_width c)). set (h := rd x o (seg_width c)).
    assert (SUB : forall a w, 0 <= a -> 0 <= w -> a + w <= 32 -> rd h a w = field (hd 0 (t_data f)) a w).
    { intros a w A0 A1 A2. unfold h. rewrite rd_rd by lia. rewrite <- H0, <- rd_field by lia. rewrite rd_rd by lia. reflexivity. }
    unfold packet_dwords, length_of. pose proof (SUB 0 10 ltac:(lia) ltac:(lia) ltac:(lia)) as S1. unfold rd in S1. rewrite Z.shiftr_0_r in S1. change (Z.ones 10) with 0x3ff in S1. rewrite S1. rewrite <- (SUB 29 1), <- (SUB 30 1) by lia.
    rewrite !rd_bit by lia. assert (T0 : zbool (Z.land (Z.land (Z.shiftr h 29) 7) 1) = Z.testbit h 29).
    { rewrite <- Z.land_assoc. change (Z.land 7 1) with (Z.shiftl 1 0). rewrite land_pow by lia. rewrite Z.shiftr_spec by lia. reflexivity. }
    assert (T1 : zbool (Z.land (Z.land (Z.shiftr h 29) 7) 2) = Z.testbit h 30).
    { rewrite <- Z.land_assoc. change (Z.land 7 2) with (Z.shiftl 1 1). rewrite land_pow by lia. rewrite Z.shiftr_spec by lia. reflexivity. }
    rewrite T0, T1. destruct (Z.testbit h 29), (Z.testbit h 30); cbn [Z.b2z Z.eqb]; reflexivity || lia.
  - specialize (HP eq_refl). pose proof (sh_one _ _ _ _ _ _ Sh SHdr eq_refl ltac:(discriminate)) as X. rewrite HP in X. cbn [told] in X. rewrite D in X. unfold at_sig in X. cbn [str] in X.
    replace (ifield b SHdr (seg * 128) (2 ^ 128 - 1)) with (t_hdr f) by (rewrite <- X; reflexivity). rewrite land_pow by lia. rewrite <- !rd_field by lia. rewrite rd_bit by lia. unfold length_of, rd. change (Z.ones 10) with 0x3ff.
    destruct (Z.testbit (t_hdr f) 126); reflexivity.
Qed.
Lemma data_part c b f seg off first : good_iframe c f -> facts c -> 0 <= seg -> 0 <= off <= zlen (t_data f) -> shows c b f off first seg ->
  isink_data c b seg (part c f off) (zlen (t_data f) - off) = (part c f (off + Z.of_nat (chunk c f off)), zlen (t_data f) - off - Z.of_nat (chunk c f off)).
Proof.
  intros G Fa S0 Ho Sh. pose proof (chunk_eq c f off Fa Ho) as CH. pose proof (fa_lns _ Fa) as SL. unfold isink_data. destruct (Z.gtb_spec (zlen (t_data f) - off) 0) as [P|P].
  - replace (zrange (Z.min (seg_lns c) (zlen (t_data f) - off))) with (map Z.of_nat (List.seq 0 (chunk c f off))) by reflexivity. rewrite !map_map. f_equal.
    + assert (D1 : map (fun k => Z.land (Z.shiftr (ifield b SData (seg * seg_width c) (2 ^ seg_width c - 1)) (32 * Z.of_nat k)) 0xffffffff) (List.seq 0 (chunk c f off)) = firstn (chunk c f off) (skipn (Z.to_nat off) (t_data f))).
      { rewrite <- (map_nth_firstn 0) by (unfold zlen in *; lia). apply map_ext_in. intros k Hk. apply in_seq in Hk. rewrite (fa_sw _ Fa). unfold ifield. change 0xffffffff with (Z.ones 32). rewrite (seg_field c b SData seg (Z.of_nat k) 32) by (reflexivity || assumption || lia).
        rewrite (sh_data _ _ _ _ _ _ Sh) by lia. f_equal. lia. }
      assert (D2 : map (fun k => Z.land (Z.shiftr (ifield b SPar (seg * seg_par_width c) (2 ^ seg_par_width c - 1)) (4 * Z.of_nat k)) 0xf) (List.seq 0 (chunk c f off)) = firstn (chunk c f off) (skipn (Z.to_nat off) (map (fun v => if has c SPar then v else 0) (t_parity f)))).
      { pose proof (if_par_len _ _ G) as PL. rewrite <- (map_nth_firstn 0) by (rewrite map_length; unfold zlen in *; lia). apply map_ext_in. intros k Hk. apply in_seq in Hk. rewrite (fa_pw _ Fa). unfold ifield. change 0xf with (Z.ones 4). rewrite (seg_field c b SPar seg (Z.of_nat k) 4) by (reflexivity || assumption || lia).
        rewrite (sh_par _ _ _ _ _ _ Sh) by lia. replace (Z.to_nat (off + Z.of_nat k)) with (Z.to_nat off + k)%nat by lia.
        destruct (has c SPar); [rewrite map_id; reflexivity|]. symmetry. clear. generalize (Z.to_nat off + k)%nat as n. induction (t_parity f) as [|x l IH]; intros [|n]; cbn; auto. }
      rewrite D1, D2. unfold more, part, carried_iframe. cbn [t_prfx t_hdr t_data t_prfx_par t_hdr_par t_parity t_func t_vf t_bar t_abort t_err]. rewrite !firstn_more. replace (Z.to_nat (off + Z.of_nat (chunk c f off))) with (Z.to_nat off + chunk c f off)%nat by lia. reflexivity.
    + unfold zlen at 2. rewrite map_length, seq_length. reflexivity.
  - assert (C0 : chunk c f off = O) by lia. rewrite C0, !Z.add_0_r, Z.sub_0_r. reflexivity.
Qed.

(** ** The whole beat *)
Fixpoint zr (a : Z) (n : nat) : list Z := match n with O => [] | S n => a :: zr (a + 1) n end.
Lemma zrange_zr m : zrange m = zr 0 (Z.to_nat m).
Proof.
  unfold zrange. change 0 with (Z.of_nat 0). generalize O as a. induction (Z.to_nat m) as [|n IH]; intros a; [reflexivity|]. cbn [List.seq map zr]. rewrite IH. f_equal. f_equal. lia.
Qed.
Definition fresh (c : in_cfg) (b : ibeat) (a : Z) : Prop := forall s i, has c s = true -> lo c s a <= i -> at_sig c b s i = 0.
Definition ilink (c : in_cfg) (s : isrc_state) (k : isink_state) (q ps : list pt_frame) : Prop :=
  Forall (good_iframe c) q /\
  match s with
  | None => k = (None, 0) /\ ps = q
  | Some (f, off, first) => first = false /\ good_iframe c f /\ 0 < off < zlen (t_data f) /\ k = (Some (part c f off), zlen (t_data f) - off) /\ ps = f :: q
  end.
Definition iwork (s : isrc_state) (q : list pt_frame) : nat :=
  (match s with Some (f, off, _) => Z.to_nat (zlen (t_data f) - off) | None => O end + list_sum (map (fun f => S (length (t_data f))) q))%nat.
Lemma next_link c cur k q ps f off first q' : ilink c cur k q ps -> isrc_next cur q = Some (f, off, first, q') ->
  good_iframe c f /\ Forall (good_iframe c) q' /\ ps = f :: q' /\ 0 <= off <= zlen (t_data f) /\ (first = true \/ t_data f <> []) /\
  k = (if first then (None, 0) else (Some (part c f off), zlen (t_data f) - off)) /\ (first = true -> off = 0) /\
  (Z.to_nat (zlen (t_data f) - off) + list_sum (map (fun f => S (length (t_data f))) q') + (if first then 1 else 0) = iwork cur q)%nat /\ (first = false -> off < zlen (t_data f)).
Proof.
  intros (Q & L) E. unfold iwork. destruct cur as [((f0 & o0) & b0)|]; cbn [isrc_next] in E.
  - injection E as -> -> -> ->. destruct L as (-> & G & R & K & P). split; [exact G|]. split; [exact Q|]. split; [exact P|]. split; [lia|]. split; [right; intros X; rewrite X in R; cbn in R; lia|]. split; [exact K|]. split; [discriminate|]. split; [lia|intros _; lia].
  - destruct q as [|g q]; [discriminate|]. injection E as -> <- <- ->. destruct L as (K & P). inversion Q; subst. pose proof (zlen_nonneg (t_data f)). split; [assumption|]. split; [assumption|]. split; [reflexivity|]. split; [lia|]. split; [left; reflexivity|]. split; [reflexivity|]. split; [reflexivity|]. split; [|discriminate]. cbn [map list_sum fold_right]. unfold zlen, list_sum. lia.
Qed.
Lemma lo_step c s a : facts c -> lo c s a < lo c s (a + 1).
Proof. intros Fa. pose proof (fa_lns _ Fa). unfold lo. destruct (perlane s); nia. Qed.
Lemma lo_nonneg c s a : facts c -> 0 <= a -> 0 <= lo c s a.
Proof. intros Fa A. pose proof (fa_lns _ Fa). unfold lo. destruct (perlane s); nia. Qed.
Lemma sink_skip c b k : forall n a, 0 <= a -> (forall i, a <= i -> at_sig c b SValid i = 0) -> isink_segs c b (zr a n) k = Ok (k, []).
Proof.
  induction n as [|n IH]; intros a A H; [reflexivity|]. cbn [zr isink_segs]. rewrite (ibit_at c) by (try exact A; reflexivity). rewrite H by lia. cbn [Z.eqb]. apply IH; [lia|]. intros i I. apply H. lia.
Qed.
Lemma segs_ok c : good_icfg c -> forall n a cur k q ps b, 0 <= a -> a + Z.of_nat n = ig c -> ilink c cur k q ps -> fresh c b a -> fits_bus c b ->
  exists b' cur' q', isrc_segs c (zr a n) cur q b = Ok (b', cur', q') /\ fits_bus c b' /\
    (forall s i, has c s = true -> 0 <= i < lo c s a -> at_sig c b' s i = at_sig c b s i) /\
    ((0 < n)%nat -> isrc_next cur q <> None -> at_sig c b' SValid a = 1 /\ (iwork cur' q' < iwork cur q)%nat) /\ (iwork cur' q' <= iwork cur q)%nat /\
    exists k' done sunk ps', ps = done ++ ps' /\ ilink c cur' k' q' ps' /\ Forall2 (fun f g => g = carried_iframe c f) done sunk /\
      forall b2, (forall s i, has c s = true -> lo c s a <= i -> at_sig c b2 s i = at_sig c b' s i) -> (forall s, has c s = false -> b2 s = 0) -> isink_segs c b2 (zr a n) k = Ok (k', sunk).
Proof.
  intros GC. pose proof (good_facts _ GC) as Fa. induction n as [|n IH]; intros a cur k q ps b A0 A1 L Fr Fb.
  - cbn [zr isrc_segs isink_segs]. exists b, cur, q. split; [reflexivity|]. split; [exact Fb|]. split; [reflexivity|]. split; [lia|]. split; [lia|]. exists k, [], [], ps. split; [reflexivity|]. split; [exact L|]. split; [constructor|reflexivity].
  - destruct (isrc_next cur q) as [(((f & off) & first) & q')|] eqn:N.
    + destruct (next_link _ _ _ _ _ _ _ _ _ L N) as (G & Q & -> & Ho & V & K & F0 & W & Lt). pose proof (if_par_len _ _ G) as PL. cbn [zr]. rewrite (isrc_step c a (zr (a + 1) n) cur q f off first q' b Fa N PL Ho).
      pose proof (chunk_eq c f off Fa Ho) as CH. pose proof (fa_lns _ Fa) as SL. pose proof (seg_w_fit c f off first a G Fa ltac:(lia) Ho) as SF. set (b1 := put c (seg_w c f off first a) b).
      assert (WO : Forall (wok c) (seg_w c f off first a)) by (apply Forall_impl with (2 := SF); intros w (X & _); exact X).
      assert (WF : Forall (wfit c) (seg_w c f off first a)) by (apply Forall_impl with (2 := SF); intros w (_ & X); exact X).
      set (fin := off + Z.of_nat (chunk c f off) >=? zlen (t_data f)).
      set (k1 := if fin then (None, 0) else (Some (part c f (off + Z.of_nat (chunk c f off))), zlen (t_data f) - off - Z.of_nat (chunk c f off))).
      assert (L1 : ilink c (if fin then None else Some (f, off + Z.of_nat (chunk c f off), false)) k1 q' (if fin then q' else f :: q')).
      { split; [exact Q|]. unfold k1. destruct fin eqn:FI; [split; reflexivity|]. unfold fin in FI. split; [reflexivity|]. split; [exact G|]. split; [lia|]. split; [f_equal; lia|reflexivity]. }
      assert (B1 : forall s i, has c s = true -> 0 <= i -> at_sig c b1 s i = Z.lor (at_sig c b s i) (look s i (seg_w c f off first a))) by (intros s i H I; apply at_put; assumption).
      assert (Fr1 : fresh c b1 (a + 1)).
      { intros s i H I. pose proof (lo_step c s a Fa). pose proof (lo_nonneg c s a Fa A0). rewrite B1 by (exact H || lia). rewrite Fr by (exact H || lia). rewrite look_outside by (try assumption; lia). reflexivity. }
      assert (Fb1 : fits_bus c b1) by (apply fits_put; assumption).
      destruct (IH (a + 1) (if fin then None else Some (f, off + Z.of_nat (chunk c f off), false)) k1 q' (if fin then q' else f :: q') b1 ltac:(lia) ltac:(lia) L1 Fr1 Fb1) as (b' & cur' & q2 & R1 & R2 & R3 & _ & R5 & k' & done & sunk & ps' & S1 & S2 & S3 & S4).
      exists b', cur', q2. split; [exact R1|]. split; [exact R2|].
      assert (BB : forall s i, has c s = true -> 0 <= i < lo c s (a + 1) -> at_sig c b' s i = Z.lor (at_sig c b s i) (look s i (seg_w c f off first a))) by (intros s i H I; rewrite R3 by assumption; apply B1; [exact H|lia]).
      assert (WK : (iwork (if fin then None else Some (f, (off + Z.of_nat (chunk c f off))%Z, false)) q' < iwork cur q)%nat).
      { rewrite <- W. unfold iwork. destruct fin eqn:FI; unfold fin in FI; destruct first; try lia; specialize (Lt eq_refl); lia. }
      split; [intros s i H I; pose proof (lo_step c s a Fa); rewrite BB by (exact H || lia); rewrite look_outside by (try assumption; lia); apply Z.lor_0_r|].
      split; [intros _ _; split; [|lia]; pose proof (gi_has _ GC) as (_ & _ & _ & HV); rewrite BB by (try exact HV; cbn; lia); rewrite Fr by (try exact HV; cbn; lia); rewrite Z.lor_0_l; rewrite seg_look by (try discriminate; exact V); reflexivity|].
      split; [lia|]. exists k', ((if fin then [f] else []) ++ done), ((if fin then [carried_iframe c f] else []) ++ sunk), ps'.
      split; [destruct fin; cbn [app]; rewrite <- S1; reflexivity|]. split; [exact S2|]. split; [destruct fin; cbn [app]; [constructor; [reflexivity|exact S3]|exact S3]|].
      intros b2 H1 H2.
      assert (S4' : isink_segs c b2 (zr (a + 1) n) k1 = Ok (k', sunk)) by (apply S4; [intros s i H I; apply H1; [exact H|pose proof (lo_step c s a Fa); lia]|exact H2]).
      assert (AT : forall s i, has c s = true -> lo c s a <= i < lo c s (a + 1) -> at_sig c b2 s i = look s i (seg_w c f off first a)).
      { intros s i H I. pose proof (lo_nonneg c s a Fa A0). rewrite H1 by (exact H || lia). rewrite BB by (exact H || lia). rewrite Fr by (exact H || lia). apply Z.lor_0_l. }
      assert (A2 : forall s i, has c s = false -> at_sig c b2 s i = 0) by (intros s i H; unfold at_sig; rewrite H2 by exact H; apply rd_0).
      assert (Sh : shows c b2 f off first a).
      { constructor.
        - intros s P E. destruct (has c s) eqn:H; [|apply A2; exact H]. rewrite AT by (try exact H; unfold lo; rewrite P; lia). apply seg_look; try assumption; intros ->; discriminate P.
        - intros j J. rewrite AT; [|apply (gi_has _ GC)|unfold lo; cbn [perlane]; nia]. rewrite seg_look_lane; [reflexivity|exact Fa|left; reflexivity|exact Ho|exact J].
        - intros j J. destruct (has c SPar) eqn:H; [|apply A2; exact H]. rewrite AT; [|exact H|unfold lo; cbn [perlane]; nia]. rewrite seg_look_lane; [reflexivity|exact Fa|right; reflexivity|exact Ho|exact J]. }
      pose proof (gi_has _ GC) as (_ & HS & HE & HV). cbn [isink_segs]. rewrite !(ibit_at c) by (try exact A0; reflexivity). rewrite !(sh_one _ _ _ _ _ _ Sh) by (reflexivity || discriminate). rewrite HS, HE, HV. cbn [told Z.eqb].
      assert (ST : (if (if first then 1 else 0) =? 1 then _ <- py_assert (is_none (fst k)) ;; Ok (Some (isink_new c b2 a), isink_count c b2 a) else Ok k) = Ok (Some (part c f off), zlen (t_data f) - off)).
      { destruct first; cbn [Z.eqb]; subst k; [|reflexivity]. cbn [fst is_none py_assert bind]. specialize (F0 eq_refl). subst off. rewrite (new_part c b2 f a G Fa A0 (gi_hdr _ GC) Sh), (count_start c b2 f a G Fa A0 ltac:(intros D; apply (gi_hdr _ GC D)) Sh), Z.sub_0_r. reflexivity. }
      rewrite ST. cbn [bind]. rewrite (data_part c b2 f a off first G Fa A0 Ho Sh). cbv beta iota. fold fin. unfold k1 in S4'. destruct fin eqn:FI; cbn [Z.eqb]; unfold fin in FI.
      * replace (zlen (t_data f) - off - Z.of_nat (chunk c f off)) with 0 by lia. cbn [Z.eqb py_assert bind]. rewrite S4'. cbn [bind app]. replace (off + Z.of_nat (chunk c f off)) with (zlen (t_data f)) by lia. rewrite part_all by exact PL. reflexivity.
      * cbn [app]. exact S4'.
    + cbn [zr isrc_segs]. rewrite N. assert (E : cur = None /\ q = []) by (destruct cur; [discriminate N|]; destruct q; [split; reflexivity|discriminate N]). destruct E as (-> & ->). exists b, None, []. split; [reflexivity|]. split; [exact Fb|]. split; [reflexivity|].
      split; [intros _ X; contradiction|]. split; [lia|]. exists k, [], [], ps. split; [reflexivity|]. split; [exact L|]. split; [constructor|]. intros b2 H1 _. apply (sink_skip c b2 k (S n)); [exact A0|]. intros i I. pose proof (gi_has _ GC) as (_ & _ & _ & HV).
      rewrite H1 by (exact HV || exact I). apply Fr; [exact HV|exact I].
Qed.

(** ** The link *)
Lemma ilink_send c s k q ps f : ilink c s k q ps -> good_iframe c f -> ilink c s k (q ++ [f]) (ps ++ [f]).
Proof.
  intros (Q & L) G. split; [apply Forall_app; split; [exact Q|constructor; [exact G|constructor]]|]. destruct s as [((f0 & o) & b)|].
  - destruct L as (A & B & C & D & ->). split; [exact A|]. split; [exact B|]. split; [exact C|]. split; [exact D|reflexivity].
  - destruct L as (A & ->). split; [exact A|reflexivity].
Qed.
Lemma fresh0 c : fresh c ibeat0 0.
Proof. intros s i _ _. unfold at_sig, ibeat0. apply rd_0. Qed.
Lemma fits_bus0 c : facts c -> fits_bus c ibeat0.
Proof. intros Fa s _. unfold ibeat0. split; [lia|]. apply Z.pow_pos_nonneg; [lia|]. apply width_nonneg. exact Fa. Qed.
Lemma fits_bool c b : fits_bus c b -> ibeat_fits c b = true.
Proof. intros H. unfold ibeat_fits. apply forallb_forall. intros s _. specialize (H s). destruct (has c s); [|reflexivity]. specialize (H eq_refl). cbn [negb orb]. lia. Qed.
Lemma at_on_bus c b s i : has c s = true -> at_sig c (on_bus c b) s i = at_sig c b s i.
Proof. intros H. unfold at_sig, on_bus. rewrite H. reflexivity. Qed.
Lemma ilink_beat c : good_icfg c -> forall s k q ps, ilink c s k q ps ->
  match isrc_beat c s q with
  | None => ps = []
  | Some r => exists b s' q' k' done sunk ps', r = Ok (b, s', q') /\ ibeat_valid b = true /\ isink_beat c k b = Ok (k', sunk) /\ ps = done ++ ps' /\ Forall2 (fun f g => g = carried_iframe c f) done sunk /\ ilink c s' k' q' ps'
  end.
Proof.
  intros GC s k q ps L. pose proof (good_facts _ GC) as Fa. pose proof (fa_ig _ Fa) as IG. unfold isrc_beat. destruct (isrc_next s q) as [(((f & off) & first) & q0)|] eqn:N.
  - assert (SAME : isrc_segs c (zrange (ig c)) (Some (f, off, first)) q0 ibeat0 = isrc_segs c (zrange (ig c)) s q ibeat0).
    { rewrite zrange_zr. destruct (Z.to_nat (ig c)) as [|n] eqn:E; [lia|]. cbn [zr isrc_segs]. rewrite N. reflexivity. }
    rewrite SAME, zrange_zr. destruct (segs_ok c GC (Z.to_nat (ig c)) 0 s k q ps ibeat0 ltac:(lia) ltac:(lia) L (fresh0 c) (fits_bus0 c Fa)) as (b' & cur' & q' & R1 & R2 & _ & R4 & _ & k' & done & sunk & ps' & S1 & S2 & S3 & S4).
    rewrite R1. cbn [bind]. rewrite (fits_bool c b' R2). exists (on_bus c b'), cur', q', k', done, sunk, ps'. split; [reflexivity|].
    pose proof (gi_has _ GC) as (_ & _ & _ & HV). destruct (R4 ltac:(lia) ltac:(rewrite N; discriminate)) as (V1 & _).
    split; [|split; [|split; [exact S1|split; [exact S3|exact S2]]]].
    + unfold ibeat_valid. rewrite <- (at_on_bus c b' SValid 0 HV) in V1. unfold at_sig in V1. cbn [str] in V1. change (0 * 1) with 0 in V1. rewrite rd_bit in V1 by lia. apply nonzero_bit with (o := 0); [lia|]. destruct (Z.testbit (on_bus c b' SValid) 0); [reflexivity|discriminate V1].
    + unfold isink_beat. rewrite zrange_zr. apply S4; [intros s0 i H _; apply at_on_bus; exact H|]. intros s0 H. unfold on_bus. rewrite H. reflexivity.
  - assert (E : s = None /\ q = []) by (destruct s; [discriminate N|]; destruct q; [split; reflexivity|discriminate N]). destruct E as (-> & ->). destruct L as (_ & _ & ->). reflexivity.
Qed.
Lemma iwork_less c : good_icfg c -> forall s q b s' q' k ps, ilink c s k q ps -> isrc_beat c s q = Some (Ok (b, s', q')) -> (iwork s' q' < iwork s q)%nat.
Proof.
  intros GC s q b s' q' k ps L. pose proof (good_facts _ GC) as Fa. pose proof (fa_ig _ Fa) as IG. unfold isrc_beat. destruct (isrc_next s q) as [(((f & off) & first) & q0)|] eqn:N; [|discriminate].
  assert (SAME : isrc_segs c (zrange (ig c)) (Some (f, off, first)) q0 ibeat0 = isrc_segs c (zrange (ig c)) s q ibeat0).
  { rewrite zrange_zr. destruct (Z.to_nat (ig c)) as [|n] eqn:E; [lia|]. cbn [zr isrc_segs]. rewrite N. reflexivity. }
  rewrite SAME, zrange_zr. destruct (segs_ok c GC (Z.to_nat (ig c)) 0 s k q ps ibeat0 ltac:(lia) ltac:(lia) L (fresh0 c) (fits_bus0 c Fa)) as (b' & cur' & q1 & R1 & R2 & _ & R4 & _ & _).
  rewrite R1. cbn [bind]. rewrite (fits_bool c b' R2). intros E. injection E as <- <- <-. apply R4; [lia|rewrite N; discriminate].
Qed.
Lemma ilink0 c : ilink c None isink0 [] [].
Proof. split; [constructor|split; reflexivity]. Qed.
Lemma carried_list c done recv : Forall2 (fun f g => g = carried_iframe c f) done recv -> recv = map (carried_iframe c) done.
Proof. induction 1 as [|f g l l' E _ IH]; [reflexivity|]. cbn [map]. rewrite E, IH. reflexivity. Qed.
Lemma in_received c lat os : good_icfg c -> Forall (good_iframe c) (avst_sent os) ->
  match in_run c lat in_chan0 os with
  | None => True
  | Some r => exists s, r = Ok s /\ exists done rest, avst_sent os = done ++ rest /\ v_recv s = map (carried_iframe c) done
  end.
Proof.
  intros GC G. pose proof (avst_safe lat ibeat_valid (isrc_beat c) (isink_beat c) (ilink c) (good_iframe c) (fun f g => g = carried_iframe c f) (ilink_send c) (ilink_beat c GC) None isink0 os (ilink0 c) G) as X.
  unfold in_run, in_chan0. destruct (avst_run _ _ _ _ _ os) as [r|]; [|exact Logic.I]. destruct X as (s & -> & done & rest & E & F). exists s. split; [reflexivity|]. exists done, rest. split; [exact E|apply carried_list; exact F].
Qed.
Lemma in_delivered c lat os s : good_icfg c -> Forall (good_iframe c) (avst_sent os) -> in_run c lat in_chan0 os = Some (Ok s) ->
  exists os' s', Forall acalm os' /\ in_run c lat s os' = Some (Ok s') /\ v_recv s' = map (carried_iframe c) (avst_sent os).
Proof.
  intros GC G R. destruct (avst_live lat ibeat_valid (isrc_beat c) (isink_beat c) (ilink c) (good_iframe c) (fun f g => g = carried_iframe c f) (ilink_send c) (ilink_beat c GC) iwork (iwork_less c GC) None isink0 os s (ilink0 c) G R) as (os' & s' & A & B & F).
  exists os', s'. split; [exact A|]. split; [exact B|apply carried_list; exact F].
Qed.
