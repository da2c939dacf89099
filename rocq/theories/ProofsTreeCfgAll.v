(** Configuration accesses of the host across a tree with the numbers that the host has given. *)
From Verif Require Import Base BaseProofs SpecTlp ModelUtils ModelTlp ModelAttrs ModelCapList ModelConfig ModelFunction ModelRegion ModelHost ModelRoute ModelEnum ModelAssign SpecBar SpecRoute
  SpecEnum SpecAssign SpecConfig SpecHost ModelTree SpecTree ModelTreeUp SpecTreeUp ModelFabric ModelTreeCfg SpecTreeCfg ProofsTlp ProofsTlpBe ProofsMem ProofsIo ProofsUtils ProofsRoute ProofsConfigLow ProofsHost ProofsEnum ProofsTreeIds ProofsTreeAll ProofsTreeUp ProofsTreeUpAll
  ProofsFabric ProofsTreeCfg.

(** ** Putting functions *)
Lemma id_yes i : id_eqb i i = true.
Proof. apply id_eqb_ok. reflexivity. Qed.
Lemma put_at i g' : forall q z f br kids, net_at z q = Some (Net f br kids) -> net_at (put_fn i g' z) q = Some (Net (if id_eqb (f_id f) i then g' else f) br (map (put_fn i g') kids)).
Proof.
  induction q as [|k q IH]; intros [f0 b0 l] f br kids Q; cbn [net_at put_fn] in *; [injection Q as -> -> ->; reflexivity|].
  destruct (nth_error l k) as [c|] eqn:E; [|discriminate Q]. rewrite (map_nth_error (put_fn i g') k l E). apply IH. exact Q.
Qed.
Lemma put_none i g' : forall q z, net_at z q = None -> net_at (put_fn i g' z) q = None.
Proof.
  induction q as [|k q IH]; intros [f0 b0 l] Q; cbn [net_at put_fn] in *; [discriminate Q|]. destruct (nth_error l k) as [c|] eqn:E.
  - rewrite (map_nth_error (put_fn i g') k l E). apply IH. exact Q.
  - replace (nth_error (map (put_fn i g') l) k) with (@None net); [reflexivity|]. symmetry. apply nth_error_None. rewrite map_length. apply nth_error_None. exact E.
Qed.
Lemma put_put i g1 g2 z : f_id g1 = i -> put_fn i g2 (put_fn i g1 z) = put_fn i g2 z.
Proof.
  intros E. induction z as [f br l IH] using net_rect'. cbn [put_fn]. f_equal.
  - destruct (id_eqb (f_id f) i) eqn:Q; [rewrite E, id_yes; reflexivity|rewrite Q; reflexivity].
  - rewrite map_map. apply map_ext_in. rewrite Forall_forall in IH. exact IH.
Qed.
Lemma put_self i g z : (forall e, In e (net_fns z) -> f_id (fst e) = i -> fst e = g) -> put_fn i g z = z.
Proof.
  induction z as [f br l IH] using net_rect'. intros H. cbn [put_fn net_fns] in *. f_equal.
  - destruct (id_eqb (f_id f) i) eqn:Q; [|reflexivity]. apply id_eqb_ok in Q. symmetry. exact (H _ (or_introl eq_refl) Q).
  - transitivity (map (fun c => c) l); [|apply map_id]. apply map_ext_in. intros c I. rewrite Forall_forall in IH. apply (IH c I). intros e Ie. apply H. right. apply in_flat_map. eauto.
Qed.
Lemma put_same i g' z : f_id g' = i -> (forall f, In (f, 2) (net_fns z) -> f_id f = i -> bus_range g' = bus_range f) -> same_numbers z (put_fn i g' z).
Proof.
  intros E. induction z as [f br l IH] using net_rect'. intros H. cbn [put_fn net_fns] in *. apply same_eq. destruct (id_eqb (f_id f) i) eqn:Q.
  - apply id_eqb_ok in Q. split; [congruence|]. split; [reflexivity|]. split; [intros ->; apply H; [left; reflexivity|exact Q]|]. clear Q.
    assert (F : Forall (fun c => same_numbers c (put_fn i g' c)) l).
    { rewrite Forall_forall in *. intros c I. apply (IH c I). intros f' If. apply H. right. apply in_flat_map. eauto. }
    clear - F. induction F; constructor; assumption.
  - split; [reflexivity|]. split; [reflexivity|]. split; [reflexivity|].
    assert (F : Forall (fun c => same_numbers c (put_fn i g' c)) l).
    { rewrite Forall_forall in *. intros c I. apply (IH c I). intros f' If. apply H. right. apply in_flat_map. eauto. }
    clear - F. induction F; constructor; assumption.
Qed.
Lemma bridge_in i z : bridge_at i z = true <-> exists f, In (f, 2) (net_fns z) /\ f_id f = i.
Proof.
  induction z as [f br l IH] using net_rect'. cbn [bridge_at net_fns]. rewrite Forall_forall in IH. split.
  - intros H. apply orb_true_iff in H. destruct H as [H|H].
    + apply andb_true_iff in H. destruct H as [H1 ->]. apply id_eqb_ok in H1. exists f. split; [left; reflexivity|exact H1].
    + apply existsb_exists in H. destruct H as (c & I & H). destruct (proj1 (IH c I) H) as (g & Ig & E). exists g. split; [right; apply in_flat_map; eauto|exact E].
  - intros (g & [Q|Ig] & E); apply orb_true_iff.
    + left. destruct br; [|discriminate Q]. injection Q as ->. rewrite E, id_yes. reflexivity.
    + right. apply in_flat_map in Ig. destruct Ig as (c & I & Ig). apply existsb_exists. exists c. split; [exact I|]. apply (IH c I). eauto.
Qed.
Lemma numbered_leafy y : forall n z, numbered n y z -> leafy z.
Proof.
  induction y as [x l IH] using hw_rect'. intros n [f br l'] N. apply numbered_eq in N. destruct N as (_ & _ & _ & N). apply leafy_eq. destruct br.
  - split; [discriminate|]. destruct N as [_ N]. clear - IH N. revert N. generalize (h_sec x). intros k N. induction N as [|y c ys cs N1 N2 IHN]; constructor; inversion IH; subst; eauto.
  - destruct N as [_ ->]. split; [reflexivity|constructor].
Qed.

(** ** Completions of a configuration request *)
Lemma answer_ok rd wr tg f t f' c : cfg_deliver rd wr tg f t = Ok (f', [c]) -> tlp_check c = Ok true /\ requester_id c = requester_id t /\ exists ty, fmt_type c = Ok ty /\ In ty [CPL; CPL_DATA].
Proof.
  unfold cfg_deliver, to_type0. change (fmt_type (set_tag (tg (address t)) t)) with (fmt_type t). destruct (fmt_type t) as [ty|e]; [|discriminate]. cbn [bind].
  set (u := match ty with CFG_READ_1 => _ | CFG_WRITE_1 => _ | _ => _ end). assert (R : requester_id u = requester_id t) by (subst u; destruct ty; reflexivity). clearbody u. destruct (fmt_type u) as [tu|e]; [|discriminate]. cbn [bind].
  assert (S : forall c0 g g', fn_upstream_send c0 g = Ok g' -> tlp_check c0 = Ok true).
  { intros c0 g g'. unfold fn_upstream_send. destruct (tlp_check c0) as [[|]|e]; cbn [bind py_assert]; try discriminate. reflexivity. }
  assert (Ur : forall g r, (f0 <- fn_upstream_send (create_ur_completion u (f_id g)) g ;; Ok (f0, create_ur_completion u (f_id g))) = Ok (r, c) -> tlp_check c = Ok true /\ requester_id c = requester_id t /\ exists ty, fmt_type c = Ok ty /\ In ty [CPL; CPL_DATA]).
  { intros g r. destruct (fn_upstream_send _ g) as [g'|e] eqn:Se; [|discriminate]. cbn [bind]. intros E. injection E as _ <-. split; [exact (S _ _ _ Se)|]. split; [exact R|]. exists CPL. split; [reflexivity|cbn; auto]. }
  destruct tu; try discriminate.
  - intros E. destruct (handle_config_0_read rd u f) as [[g c']|e] eqn:H; [|discriminate E]. cbn [bind] in E. injection E as <- <-. unfold handle_config_0_read in H. destruct (cfg_target u f); [|exact (Ur _ _ H)].
    destruct (rd _ _) as [[v|]|e]; try discriminate H. cbn [bind] in H. destruct (struct_pack_le 4 v) as [d|e]; [|discriminate H]. cbn [bind] in H. destruct (fn_upstream_send _ _) as [g'|e] eqn:Se; [|discriminate H]. cbn [bind] in H.
    injection H as _ <-. split; [exact (S _ _ _ Se)|]. split; [exact R|]. exists CPL_DATA. split; [|cbn; auto]. unfold tlp_set_data. destruct d; reflexivity.
  - intros E. destruct (handle_config_0_write wr u f) as [[g c']|e] eqn:H; [|discriminate E]. cbn [bind] in E. injection E as <- <-. unfold handle_config_0_write in H. destruct (cfg_target u f); [|exact (Ur _ _ H)].
    destruct (unpack_l (data u)) as [d|e]; [|discriminate H]. cbn [bind] in H. destruct (fn_upstream_send _ _) as [g'|e] eqn:Se; [|discriminate H]. cbn [bind] in H.
    injection H as _ <-. split; [exact (S _ _ _ Se)|]. split; [exact R|]. exists CPL. split; [reflexivity|cbn; auto].
Qed.
(** ** Requests *)
Definition cfg_one (t : tlp) : Prop := tlp_check t = Ok true /\ type_ t = 5 /\ (fmt t = 0 /\ fmt_type t = Ok CFG_READ_1 \/ fmt t = 2 /\ fmt_type t = Ok CFG_WRITE_1) /\ requester_id t = id0.
Lemma one_deliver rd wr tg t f g' c : cfg_one t -> cfg_deliver rd wr tg f t = Ok (g', [c]) <->
  (ty <- fmt_type (set_type_ 4 (set_tag (tg (address t)) t)) ;; match ty with CFG_READ_0 => handle_config_0_read rd (set_type_ 4 (set_tag (tg (address t)) t)) f
    | CFG_WRITE_0 => handle_config_0_write wr (set_type_ 4 (set_tag (tg (address t)) t)) f | _ => Err PyException end) = Ok (g', c).
Proof.
  intros (_ & _ & F & _). unfold cfg_deliver, to_type0. change (fmt_type (set_tag (tg (address t)) t)) with (fmt_type t).
  destruct F as [[F T]|[F T]]; rewrite T; cbn [bind].
  - replace (set_fmt_type CFG_READ_0 (set_tag (tg (address t)) t)) with (set_type_ 4 (set_tag (tg (address t)) t)) by (unfold set_fmt_type, set_type_, set_fmt, set_tag; cbn; rewrite F; reflexivity).
    replace (fmt_type (set_type_ 4 (set_tag (tg (address t)) t))) with (Ok CFG_READ_0) by (unfold fmt_type; cbn [fmt type_ set_type_ set_tag]; rewrite F; reflexivity). cbn [bind].
    destruct (handle_config_0_read _ _ _) as [[g1 c1]|e]; cbn [bind]; split; intros E; try discriminate E; injection E as -> ->; reflexivity.
  - replace (set_fmt_type CFG_WRITE_0 (set_tag (tg (address t)) t)) with (set_type_ 4 (set_tag (tg (address t)) t)) by (unfold set_fmt_type, set_type_, set_fmt, set_tag; cbn; rewrite F; reflexivity).
    replace (fmt_type (set_type_ 4 (set_tag (tg (address t)) t))) with (Ok CFG_WRITE_0) by (unfold fmt_type; cbn [fmt type_ set_type_ set_tag]; rewrite F; reflexivity). cbn [bind].
    destruct (handle_config_0_write _ _ _) as [[g1 c1]|e]; cbn [bind]; split; intros E; try discriminate E; injection E as -> ->; reflexivity.
Qed.
Lemma read_one addr k dev : cfg_one (snd (set_addr_be addr k (cfg_req CFG_READ_1 dev))).
Proof. unfold cfg_one, set_addr_be. cbv zeta. destruct (_ =? 0); [|destruct (_ =? 1)]; (split; [reflexivity|]; split; [reflexivity|]; split; [left; split; reflexivity|reflexivity]). Qed.
Lemma write_one addr d dev : d <> [] -> addr mod 4 + zlen d <= 4 -> cfg_one (set_addr_be_data addr d (cfg_req CFG_WRITE_1 dev)).
Proof.
  intros Hd H2. destruct (write_req addr d dev Hd H2) as (_ & _ & T & _ & _ & _ & _ & L). set (u := set_addr_be_data addr d (cfg_req CFG_WRITE_1 dev)) in *.
  assert (E : fmt u = 2 /\ type_ u = 5 /\ requester_id u = id0) by (subst u; clear; unfold set_addr_be_data, set_addr_be; cbv zeta; repeat match goal with |- context [if ?b then _ else _] => destruct b end; repeat split; reflexivity).
  assert (N : tlen u = 1).
  { assert (H1 : 1 <= zlen d) by (destruct d; [congruence|rewrite zlen_cons; pose proof (zlen_nonneg d); lia]). destruct (set_addr_be_data_shape addr d (cfg_req CFG_WRITE_1 dev) Hd) as (D & T' & _). fold u in D, T'. rewrite T'.
    set (t0 := set_address (Z.land addr (Z.lnot 3)) (cfg_req CFG_WRITE_1 dev)). destruct (set_addr_be_image addr (zlen d) t0 H1) as [_ A L' B _]. lia. }
  clearbody u. destruct E as (F & Y & R). split; [|split; [exact Y|split; [right; split; [exact F|exact T]|exact R]]].
  unfold tlp_check. rewrite T, F, N. cbn [bind]. replace (1 * 4 =? zlen (data u)) with true by (unfold zlen; rewrite L; reflexivity). reflexivity.
Qed.

Section Up.
Context (m : Z) (h : hw) (z : net) (l : lims) (h' : hw) (b : pbus) (n : list adev) (l' : lims).
Hypothesis U : arranged m h z l h' b n l'.
Lemma zz_once : NoDup (map net_id (net_fns z)).
Proof.
  destruct (up_numbers m h z l h' b n l' U) as [E ND]. rewrite E in ND. assert (No : ~ In (mkId 0 0 0) (map number (below_functions h'))) by (intros I; exact (not_host m h z l h' b n l' U _ I eq_refl)). rewrite <- E in No, ND.
  destruct (up m h z l h' b n l' U) as (f & zs & Ez & (Hi & _) & _). rewrite Ez in *. cbn [below] in *. cbn [net_fns map]. constructor; [|exact ND]. change (net_id (f, net_bars true)) with (f_id f). rewrite Hi. exact No.
Qed.
Lemma zz_leafy : leafy z.
Proof.
  destruct (up m h z l h' b n l' U) as (f & zs & -> & _ & _ & _ & _ & Nu). clear U. apply leafy_eq. split; [discriminate|]. induction Nu as [|y c ys cs N _ IH]; constructor; [exact (numbered_leafy y 0 c N)|exact IH].
Qed.
Section At.
Context (z' : net) (q : list nat) (g : fnc) (br : bool) (kids : list net).
Hypothesis Sa : same_numbers z z'.
Hypothesis Nq : q <> [].
Hypothesis Q : net_at z' q = Some (Net g br kids).
Lemma at_once' e : In e (net_fns z') -> f_id (fst e) = f_id g -> e = (g, net_bars br).
Proof.
  intros I E. pose proof (same_ids z z' Sa) as Id. pose proof zz_once as N. unfold net_id in N. rewrite <- Id in N. apply (once_in (fun e => f_id (fst e)) (net_fns z') e (g, net_bars br) N I); [exact (at_fns _ _ _ Q)|exact E].
Qed.
Lemma at_kind : bridge_at (f_id g) z' = br.
Proof.
  destruct (bridge_at (f_id g) z') eqn:E.
  - apply bridge_in in E. destruct E as (f & I & E). apply at_once' in I; [|exact E]. injection I as _ I. destruct br; [reflexivity|discriminate I].
  - destruct br; [|reflexivity]. exfalso. enough (E' : bridge_at (f_id g) z' = true) by congruence. apply bridge_in. exists g. split; [exact (at_fns _ _ _ Q)|reflexivity].
Qed.
Lemma put_like g' : f_id g' = f_id g -> (br = true -> bus_range g' = bus_range g) -> same_numbers z (put_fn (f_id g) g' z').
Proof.
  intros E B. apply (same_trans _ z' _ Sa). apply put_same; [exact E|]. intros f I Ef. apply at_once' in I; [|exact Ef]. injection I as -> I. apply B. destruct br; [reflexivity|discriminate I].
Qed.
Lemma base_at : exists w, net_at z q = Some w /\ f_id (net_fn w) = f_id g.
Proof. destruct (same_at q z z' _ Sa Q) as ([f b0 k0] & A & B). apply same_eq in B. eexists. split; [exact A|]. symmetry. apply B. Qed.
Lemma goes t : cfg_one t -> completer_id t = f_id g -> reach z' t = Ok (Some (g, set_type_ 4 t)).
Proof.
  intros (C & Y & F & R) E. destruct base_at as (w & Qz & Ew). assert (T : exists ty, fmt_type t = Ok ty /\ (ty = CFG_READ_1 \/ ty = CFG_WRITE_1)) by (destruct F as [[_ F]|[_ F]]; eauto). destruct T as (ty & T & Ty).
  assert (Ro : route_of ty t = TBus (f_id g)) by (rewrite <- E; destruct Ty as [-> | ->]; reflexivity).
  assert (I : In (f_id g) (map number (below_functions h'))) by (apply (path_ids m h z l h' b n l' U); eauto).
  pose proof (number_bus m h z l h' b n l' U q w Nq Qz) as Bu. rewrite Ew in Bu.
  destruct (up_ids m h z l h' b n l' U t ty (f_id g) C T (or_introl Ro) (not_host m h z l h' b n l' U _ I) Bu) as [H _]. destruct (H I) as (g0 & t' & Re & G0 & _ & Ar).
  assert (Et : t' = set_type_ 4 t) by (destruct Ar as [[_ Ar]|[Ar _]]; [destruct (Ar ty T); destruct Ty as [-> | ->]; cbn; auto|exact Ar]). subst t'.
  assert (IdT : id_type t) by (exists ty; split; [exact T|destruct Ty as [-> | ->]; cbn; auto]). pose proof (like_reach z z' t IdT Sa) as L. rewrite Re in L. cbn [like] in L.
  destruct (reach z' t) as [[[g1 t1]|]|e] eqn:Re'; try contradiction. destruct L as [-> G1]. pose proof (reach_in z' t g1 _ Re') as J. apply in_map_iff in J. destruct J as (e & <- & J). apply at_once' in J; [|congruence]. subst e. reflexivity.
Qed.
Lemma step tg t g' c : cfg_one t -> completer_id t = f_id g -> cfg_deliver (cfg_rd br) (cfg_wr br) tg g t = Ok (g', [c]) -> f_id g' = f_id g -> (br = true -> bus_range g' = bus_range g) ->
  cfg_request tg z' t = Ok (put_fn (f_id g) g' z', [c]).
Proof.
  intros O E D Eg B. assert (O' : cfg_one (set_tag (tg (address t)) t)) by exact O. unfold cfg_request. rewrite (goes _ O' E). cbn [bind]. rewrite at_kind. unfold cfg_answer. rewrite (proj1 (one_deliver _ _ tg t g g' c O) D). cbn [bind]. cbv zeta.
  destruct (answer_ok _ _ _ _ _ _ _ D) as (C & R & ty & T & Ty). rewrite Eg. cbn [back]. destruct base_at as (w & Qz & Ew). pose proof (put_like g' Eg B) as Sp.
  assert (Lo : locate (put_fn (f_id g) g' z') (f_id g) = Some q) by (rewrite (same_locate (f_id g) z _ Sp), <- Ew; exact (locate_at m h z l h' b n l' U q w Qz)).
  unfold travel. destruct (id_eqb (f_id g) id0) eqn:Ho.
  { apply id_eqb_ok in Ho. rewrite <- Ew in Ho. destruct (not_top m h z l h' b n l' U q w Nq Qz Ho). }
  rewrite Lo. assert (IdT : id_type c) by (exists ty; split; [exact T|destruct Ty as [<-|[<-|[]]]; cbn; auto 10]). pose proof (same_rise q true true z _ c zz_leafy IdT Sp) as Ri.
  assert (Ro : route_of ty c = TBack id0) by (destruct O as (_ & _ & _ & O); rewrite O in R; rewrite <- R; destruct Ty as [<-|[<-|[]]]; reflexivity).
  destruct (up_back m h z l h' b n l' U c ty id0 q w C T Ro Nq Qz) as (Pa & _). unfold from_function in *. rewrite (Pa eq_refl) in Ri. cbn [same_end] in Ri.
  destruct (rise true true (put_fn (f_id g) g' z') q c) as [[c'|? ?|]|e]; try contradiction. subst c'. reflexivity.
Qed.
Lemma stays : put_fn (f_id g) g z' = z'.
Proof. apply put_self. intros e I E. rewrite (at_once' e I E). reflexivity. Qed.
End At.

(** ** Reads *)
Definition kind_of (br : bool) := (cfg_rd br, cfg_wr br, masks_of br).
Lemma kind_in br : In (kind_of br) cfg_kinds.
Proof. destruct br; cbn; auto. Qed.
Lemma reads z' q g br kids tg crs : same_numbers z z' -> q <> [] -> net_at z' q = Some (Net g br kids) -> forall fuel addr rem acc g1 d, 0 <= rem <= Z.of_nat fuel ->
  (forall r, addr / 4 <= r <= (addr + rem - 1) / 4 -> readable (cfg_rd br) g r) ->
  config_read_loop fuel (cfg_deliver (cfg_rd br) (cfg_wr br) tg) crs (f_id g) addr rem acc g = Ok (g1, d) -> config_read_loop fuel (cfg_request tg) crs (f_id g) addr rem acc z' = Ok (z', d).
Proof.
  intros Sa Nq Q. induction fuel as [|fuel IH]; intros addr rem acc g1 d H Rd E; cbn [config_read_loop] in *; [injection E as _ <-; reflexivity|].
  destruct (0 <? rem) eqn:Er; [|injection E as _ <-; reflexivity]. destruct (len_spec addr rem ltac:(lia)) as (K1 & K2 & K3). cbv zeta in *. set (k := Z.min rem (4 - addr mod 4)) in *. clearbody k.
  destruct (Rd (addr / 4) ltac:(lia)) as (v & Rv & V).
  destruct (deliver_read (cfg_rd br) (cfg_wr br) tg g (f_id g) addr k v (conj eq_refl eq_refl) ltac:(lia) K2 (fun i r => proj1 (kinds_id _ _ _ (kind_in br) i g r)) Rv V) as (c & D & S1 & S2 & S3).
  assert (Eg : with_id (mkId (bus (f_id g)) (device (f_id g)) (func (f_id g))) g = g) by (destruct g as [? ? ? ? [? ? ?]]; reflexivity). rewrite Eg in D.
  pose proof (step z' q g br kids Sa Nq Q tg _ g c (read_one addr k (f_id g)) ltac:(unfold set_addr_be; cbv zeta; destruct (_ =? 0); [|destruct (_ =? 1)]; reflexivity) D eq_refl (fun _ => eq_refl)) as St.
  rewrite (stays z' q g br kids Sa Q) in St. unfold cfg_req in *. rewrite D in E. rewrite St. cbn [bind] in *. destruct (config_read_data crs _ [c]) as [dd|e]; [|discriminate E]. cbn [bind] in *.
  apply (IH _ _ _ g1 d) in E; [exact E|lia|]. intros r Hr. apply Rd. lia.
Qed.
Lemma tree_read z' q g br kids tg crs addr len : same_numbers z z' -> q <> [] -> net_at z' q = Some (Net g br kids) -> 0 <= len -> (forall r, addr / 4 <= r <= (addr + len - 1) / 4 -> readable (cfg_rd br) g r) ->
  exists d, config_read (cfg_request tg) crs (f_id g) addr len z' = Ok (z', d) /\ zlen d = len /\ forall k, 0 <= k < len -> cfg_byte (cfg_rd br) g (addr + k) = Some (nth (Z.to_nat k) d 0).
Proof.
  intros Sa Nq Q Hl Rd. destruct (host_read _ _ _ tg crs (f_id g) addr len g (kind_in br) Hl (conj eq_refl eq_refl) Rd) as (d & E & L & B). exists d. split; [|split; [exact L|exact B]]. unfold config_read in *.
  destruct (config_read_loop _ _ crs (f_id g) addr len [] g) as [[g1 d1]|e] eqn:El; [|discriminate E]. cbn [bind] in E. injection E as _ <-.
  rewrite (reads z' q g br kids tg crs Sa Nq Q (Z.to_nat len) addr len [] g1 d1 ltac:(lia) Rd El). reflexivity.
Qed.

(** ** Writes *)
Lemma keeps_buses reg x be g : reg <> 6 -> bus_range (br_write reg x be g) = bus_range g.
Proof.
  intros N. rewrite br_write_eq. unfold br_write_alt, fn_write. replace (reg =? 6) with false by lia.
  repeat match goal with |- bus_range (if ?b then _ else _) = _ => destruct b; [unfold bus_range, with_attr; cbn [f_attr]; unfold when; repeat match goal with |- context [if bit ?x ?y then _ else _] => destruct (bit x y) end; reflexivity|] end.
  reflexivity.
Qed.
Lemma writes tg q br : q <> [] -> forall fuel addr d z' g kids, same_numbers z z' -> net_at z' q = Some (Net g br kids) -> zlen d <= Z.of_nat fuel -> bytes_ok d -> spared br addr (zlen d) ->
  exists g1, config_write_loop fuel (cfg_deliver (cfg_rd br) (cfg_wr br) tg) (f_id g) addr d g = Ok g1 /\ config_write_loop fuel (cfg_request tg) (f_id g) addr d z' = Ok (put_fn (f_id g) g1 z') /\ f_id g1 = f_id g /\
    (br = true -> bus_range g1 = bus_range g).
Proof.
  intros Nq. induction fuel as [|fuel IH]; intros addr d z' g kids Sa Q H Bd Sp; cbn [config_write_loop].
  - exists g. rewrite (stays z' q g br kids Sa Q). auto.
  - destruct (0 <? zlen d) eqn:E; [|exists g; rewrite (stays z' q g br kids Sa Q); auto].
    destruct (len_spec addr (zlen d) ltac:(lia)) as (K1 & K2 & K3). cbv zeta in *. set (k := Z.min (zlen d) (4 - addr mod 4)) in *. clearbody k.
    assert (S : ModelRegion.slice 0 k d = firstn (Z.to_nat k) d) by (unfold ModelRegion.slice; cbn [skipn Z.to_nat]; f_equal; lia). rewrite S. clear S.
    assert (L1 : zlen (firstn (Z.to_nat k) d) = k) by (apply zlen_firstn; lia). assert (L2 : zlen (skipn (Z.to_nat k) d) = zlen d - k) by (unfold zlen in *; rewrite skipn_length; lia).
    assert (N1 : firstn (Z.to_nat k) d <> []) by (intros X; rewrite X in L1; cbn in L1; lia).
    pose proof Bd as Bd'. rewrite <- (firstn_skipn (Z.to_nat k) d) in Bd'. apply Forall_app in Bd'. destruct Bd' as [B1 B2].
    destruct (deliver_write (cfg_rd br) (cfg_wr br) tg g (f_id g) addr _ (conj eq_refl eq_refl) N1 ltac:(lia) B1) as (c & x & be & D & S1 & _).
    assert (Eg : with_id (mkId (bus (f_id g)) (device (f_id g)) (func (f_id g))) g = g) by (destruct g as [? ? ? ? [? ? ?]]; reflexivity). rewrite Eg in D.
    set (g1 := cfg_wr br (addr / 4) x be g) in *.
    assert (I1 : f_id g1 = f_id g) by exact (kinds_wr_id _ _ _ (kind_in br) _ _ _ _).
    assert (R1 : br = true -> bus_range g1 = bus_range g) by (intros ->; apply keeps_buses; specialize (Sp eq_refl); lia).
    pose proof (step z' q g br kids Sa Nq Q tg _ g1 c (write_one addr _ (f_id g) N1 ltac:(lia)) (proj1 (proj2 (write_req addr _ (f_id g) N1 ltac:(lia)))) D I1 R1) as St.
    unfold cfg_req in *. rewrite D, St. cbn [bind]. pose proof (put_like z' q g br kids Sa Q g1 I1 R1) as Sa1. pose proof (put_at (f_id g) g1 q z' g br kids Q) as Q1. rewrite id_yes in Q1.
    destruct (IH (addr + k) (skipn (Z.to_nat k) d) _ g1 _ Sa1 Q1 ltac:(lia) B2 ltac:(intros Eb; specialize (Sp Eb); lia)) as (g2 & W1 & W2 & W3 & W4). rewrite I1 in *.
    exists g2. split; [exact W1|]. split; [rewrite W2; rewrite put_put by exact I1; reflexivity|]. split; [exact W3|]. intros Eb. rewrite W4, R1 by exact Eb. reflexivity.
Qed.
Lemma tree_write z' q g br kids tg addr d : same_numbers z z' -> q <> [] -> net_at z' q = Some (Net g br kids) -> bytes_ok d -> spared br addr (zlen d) ->
  exists z'' g', config_write (cfg_request tg) (f_id g) addr d z' = Ok z'' /\ same_numbers z z'' /\ (exists kids', net_at z'' q = Some (Net g' br kids')) /\
    (forall p, p <> q -> option_map (fun w => (net_fn w, net_br w)) (net_at z'' p) = option_map (fun w => (net_fn w, net_br w)) (net_at z' p)) /\
    (forall r v rw w1c exc, cfg_rd br g r = Ok (Some v) -> masks_of br g r = Some (rw, w1c, exc) ->
      exists v', cfg_rd br g' r = Ok (Some v') /\ masks_of br g' r = Some (rw, w1c, exc) /\
        (forall i, 0 <= i -> Z.testbit exc i = false -> Z.testbit v' i = host_bit rw w1c addr d r v i) /\
        (d = [] \/ 4 * r + 4 <= addr \/ addr + zlen d <= 4 * r -> v' = v)).
Proof.
  intros Sa Nq Q Bd Sp. unfold config_write. destruct (writes tg q br Nq (length d) addr d z' g kids Sa Q ltac:(unfold zlen; lia) Bd Sp) as (g1 & W1 & W2 & W3 & W4).
  destruct (host_write _ _ _ tg (f_id g) addr d g (kind_in br) (conj eq_refl eq_refl) Bd) as (f' & E & _ & H). unfold config_write in E. rewrite W1 in E. injection E as <-.
  exists (put_fn (f_id g) g1 z'), g1. split; [exact W2|]. split; [exact (put_like z' q g br kids Sa Q g1 W3 W4)|]. split; [|split; [|exact H]].
  - pose proof (put_at (f_id g) g1 q z' g br kids Q) as Q1. rewrite id_yes in Q1. eauto.
  - intros p Np. destruct (net_at z' p) as [[f b0 k0]|] eqn:P; [|rewrite (put_none _ _ p z' P); reflexivity]. rewrite (put_at (f_id g) g1 p z' f b0 k0 P). cbn [option_map net_fn net_br]. destruct (id_eqb (f_id f) (f_id g)) eqn:Ei; [|reflexivity].
    apply id_eqb_ok in Ei. destruct Np. destruct (same_at p z z' _ Sa P) as ([f1 b1 k1] & P1 & S1). destruct (same_at q z z' _ Sa Q) as ([f2 b2 k2] & P2 & S2). apply same_eq in S1, S2.
    apply (path_once m h z l h' b n l' U p q _ _ P1 P2). cbn [net_fn]. destruct S1 as [S1 _], S2 as [S2 _]. congruence.
Qed.

(** ** Nobody there *)
Lemma goes_nowhere z' dev t : same_numbers z z' -> cfg_one t -> completer_id t = dev -> 0 <= bus dev < 256 -> ~ In dev (map number (below_functions h')) -> reach z' t = Ok None.
Proof.
  intros Sa (C & Y & F & R) E Bu Ni. assert (T : exists ty, fmt_type t = Ok ty /\ (ty = CFG_READ_1 \/ ty = CFG_WRITE_1)) by (destruct F as [[_ F]|[_ F]]; eauto). destruct T as (ty & T & Ty).
  assert (Re : reach z t = Ok None).
  { destruct (id_eqb dev id0) eqn:Ed.
    - apply id_eqb_ok in Ed. destruct (up m h z l h' b n l' U) as (f & zs & -> & _). cbn [reach]. unfold br_upstream_recv. rewrite C. cbn [bind py_assert]. set (f1 := if _ && _ then _ else f). clearbody f1.
      assert (M : match_tlp 2 f1 t = Ok false) by (unfold match_tlp; rewrite T; destruct Ty as [-> | ->]; reflexivity).
      assert (S : match_secondary f1 t = Ok false) by (unfold match_secondary; rewrite T, E, Ed; cbn [bind]; change (id_eqb id0 id0) with true; cbn [negb]; rewrite andb_false_r; destruct Ty as [-> | ->]; reflexivity).
      rewrite M. cbn [bind]. rewrite S. cbn [bind]. rewrite T. cbn [bind]. unfold br_unrouted. assert (Ur : unrouted ty (f_id f1) t = Ok (Some (create_ur_completion t (f_id f1)))) by (destruct Ty as [-> | ->]; reflexivity).
      rewrite Ur. cbn [bind br_sends]. unfold fn_upstream_send. change (tlp_check (create_ur_completion t (f_id f1))) with (Ok true). reflexivity.
    - assert (Ro : route_of ty t = TBus dev) by (rewrite <- E; destruct Ty as [-> | ->]; reflexivity).
      apply (up_ids m h z l h' b n l' U t ty dev C T (or_introl Ro)); [|exact Bu|exact Ni]. intros X. rewrite X in Ed. discriminate Ed. }
  assert (IdT : id_type t) by (exists ty; split; [exact T|destruct Ty as [-> | ->]; cbn; auto]). pose proof (like_reach z z' t IdT Sa) as L. rewrite Re in L. destruct (reach z' t) as [[[? ?]|]|e]; cbn [like] in L; try contradiction. reflexivity.
Qed.
Lemma nothing tg z' dev t : same_numbers z z' -> cfg_one t -> completer_id t = dev -> 0 <= bus dev < 256 -> ~ In dev (map number (below_functions h')) -> cfg_request tg z' t = Ok (z', []).
Proof. intros Sa O E Bu Ni. unfold cfg_request. rewrite (goes_nowhere z' dev (set_tag (tg (address t)) t) Sa O E Bu Ni). reflexivity. Qed.
Lemma tree_absent tg crs z' dev addr len d : same_numbers z z' -> 0 <= bus dev < 256 -> ~ In dev (map number (below_functions h')) -> 0 <= len ->
  config_read (cfg_request tg) crs dev addr len z' = Ok (z', repeat 0xff (Z.to_nat len)) /\ config_write (cfg_request tg) dev addr d z' = Ok z'.
Proof.
  intros Sa Bu Ni Hl. split.
  - assert (G : forall fuel addr rem acc, 0 <= rem <= Z.of_nat fuel -> exists k, config_read_loop fuel (cfg_request tg) crs dev addr rem acc z' = Ok (z', acc ++ repeat 0xff k) /\ rem <= Z.of_nat k).
    { induction fuel as [|fuel IH]; intros a rem acc H.
      - exists O. cbn [config_read_loop repeat]. rewrite app_nil_r. split; [reflexivity|lia].
      - cbn [config_read_loop]. destruct (0 <? rem) eqn:E; [|exists O; cbn [repeat]; rewrite app_nil_r; split; [reflexivity|lia]].
        destruct (len_spec a rem ltac:(lia)) as (K1 & K2 & K3). cbv zeta in *. set (k := Z.min rem (4 - a mod 4)) in *. clearbody k.
        pose proof (nothing tg z' dev _ Sa (read_one a k dev) ltac:(unfold set_addr_be; cbv zeta; destruct (_ =? 0); [|destruct (_ =? 1)]; reflexivity) Bu Ni) as St. unfold cfg_req in St. rewrite St. cbn [bind config_read_data].
        destruct (IH (a + k) (rem - k) (acc ++ skipn (Z.to_nat (a mod 4)) [255; 255; 255; 255]) ltac:(lia)) as (j & -> & L).
        exists (Z.to_nat (4 - a mod 4) + j)%nat. split; [|lia]. rewrite repeat_app, app_assoc. do 4 f_equal.
        assert (M : a mod 4 = 0 \/ a mod 4 = 1 \/ a mod 4 = 2 \/ a mod 4 = 3) by lia. destruct M as [-> | [-> | [-> | ->]]]; reflexivity. }
    unfold config_read. destruct (G (Z.to_nat len) addr len [] ltac:(lia)) as (k & -> & L). cbn [bind app]. do 2 f_equal. replace k with (Z.to_nat len + (k - Z.to_nat len))%nat by lia. rewrite repeat_app, firstn_app, repeat_length.
    rewrite firstn_all2 by (rewrite repeat_length; lia). rewrite Nat.sub_diag. cbn [firstn]. apply app_nil_r.
  - unfold config_write. assert (G : forall fuel addr d, config_write_loop fuel (cfg_request tg) dev addr d z' = Ok z'); [|apply G]. clear - U Sa Bu Ni.
    induction fuel as [|fuel IH]; intros a d; [reflexivity|]. cbn [config_write_loop]. destruct (0 <? zlen d) eqn:E; [|reflexivity].
    destruct (len_spec a (zlen d) ltac:(lia)) as (K1 & K2 & K3). cbv zeta in *. set (k := Z.min (zlen d) (4 - a mod 4)) in *. clearbody k.
    assert (S : ModelRegion.slice 0 k d = firstn (Z.to_nat k) d) by (unfold ModelRegion.slice; cbn [skipn Z.to_nat]; f_equal; lia). rewrite S. clear S.
    assert (L1 : zlen (firstn (Z.to_nat k) d) = k) by (apply zlen_firstn; lia). assert (N1 : firstn (Z.to_nat k) d <> []) by (intros X; rewrite X in L1; cbn in L1; lia).
    pose proof (nothing tg z' dev _ Sa (write_one a _ dev N1 ltac:(lia)) (proj1 (proj2 (write_req a _ dev N1 ltac:(lia)))) Bu Ni) as St. unfold cfg_req in St. rewrite St. cbn [bind]. apply IH.
Qed.
End Up.
Lemma tree_present m h z l h' b n l' : arranged m h z l h' b n l' -> same_numbers z z /\
  forall z' dev, same_numbers z z' -> (In dev (map number (below_functions h')) <-> exists q w, q <> [] /\ net_at z' q = Some w /\ f_id (net_fn w) = dev).
Proof.
  intros U. split; [apply same_refl|]. intros z' dev S. rewrite (path_ids m h z l h' b n l' U dev). split; intros (q & [f br k] & Nq & Q & E).
  - destruct (same_at' q _ z' _ S Q) as ([f' br' k'] & Q' & S'). apply same_eq in S'. destruct S' as (S' & _). exists q. eexists. split; [exact Nq|]. split; [exact Q'|]. cbn [net_fn] in *. congruence.
  - destruct (same_at q _ z' _ S Q) as ([f' br' k'] & Q' & S'). apply same_eq in S'. destruct S' as (S' & _). exists q. eexists. split; [exact Nq|]. split; [exact Q'|]. cbn [net_fn] in *. congruence.
Qed.
