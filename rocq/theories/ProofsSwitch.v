From Coq Require Import Permutation.
From Verif Require Import Base BaseProofs ModelUtils ModelTlp ModelAttrs ModelCaps ModelCapList ModelConfig ModelFunction ModelRoute
  SpecUtils SpecBar SpecRoute SpecSwitch ProofsUtils ProofsTlp ProofsMem ProofsCaps ProofsBar ProofsRoute ProofsRouteBr.

(** ** Bridges without BARs *)
Lemma plain_iff f : plain f <-> (f_attr f (fn_bar 0) = 0 /\ f_attr f (fn_bar_mask 0) = 0) /\ f_attr f (fn_bar 1) = 0 /\ f_attr f (fn_bar_mask 1) = 0.
Proof. unfold plain, no_bars. cbn [laid_out]. change (0 + 1) with 1. tauto. Qed.
Lemma plain_bars f t ty : plain f -> 0 <= address t -> bars f 2 no_bars (route_of ty t).
Proof. intros P A. split; [exact P|]. split; [reflexivity|]. destruct ty; cbn [route_of]; try exact I; (split; [exact A|]; split; constructor). Qed.
Lemma plain_reports f g m : reports f g m -> only_status m -> plain f -> plain g.
Proof. intros R S P. unfold plain in *. apply (laid_out_ext (f_attr f)); [|exact P]. intros j Hj. change (total_slots no_bars) with 2 in Hj.
  destruct (plain_bar j ltac:(lia)) as [P1 P2]. split; eapply reports_attr; eassumption. Qed.
Lemma bmu_none be d : byte_mask_update 0 be d 0 = 0.
Proof.
  unfold byte_mask_update. rewrite Z.land_0_r, Z.land_0_l. change (Z.lor 0 0) with 0. generalize (S (S (Z.to_nat (Z.log2 be)))) 1 255.
  induction n as [|n IH]; intros x y; cbn [bmu_loop]; [reflexivity|]. rewrite !Z.land_0_l. change (Z.lor 0 0) with 0. destruct (x <=? be); [|reflexivity].
  destruct (zbool _); apply IH.
Qed.
Lemma plain_write reg d be f : plain f -> plain (br_write reg d be f).
Proof.
  rewrite !plain_iff. intros ((A & B) & C & D). destruct (kind_bars br_read br_write 2) as [_ K]; [right; left; reflexivity|].
  destruct (K 0 f ltac:(lia)) as [_ K0]. destruct (K 1 f ltac:(lia)) as [_ K1]. destruct (K0 reg d be) as [-> ->], (K1 reg d be) as [-> ->].
  rewrite A, B, C, D, bmu_none. destruct (reg =? _), (reg =? _); repeat split; reflexivity.
Qed.
Lemma type_of_ok t ty : fmt_type t = Ok ty -> type_of t = ty.
Proof. intros H. unfold type_of. rewrite H. reflexivity. Qed.
Lemma good_ur t cid : answers (create_ur_completion t cid) t.
Proof. split; [|split; [left; reflexivity|repeat split]]. split; [reflexivity|]. split; [apply Z.le_refl|]. exists CPL. split; [reflexivity|discriminate]. Qed.
Lemma good_cpl t cid : answers (create_completion t cid false SC) t.
Proof. split; [|split; [left; reflexivity|repeat split]]. split; [reflexivity|]. split; [apply Z.le_refl|]. exists CPL. split; [reflexivity|discriminate]. Qed.
Lemma good_cpld t cid d : length d = 4%nat -> answers (set_byte_count 4 (tlp_set_data d (create_completion_data t cid))) t.
Proof.
  intros L. split; [|split; [right; reflexivity|repeat split]]. split; [|split; [apply Z.le_refl|exists CPL_DATA; split; [reflexivity|discriminate]]].
  do 4 (destruct d as [|? d]; [discriminate L|]). destruct d; [|discriminate L]. reflexivity.
Qed.

(** ** What a port does with a TLP *)
Definition opp (d : dir) : dir := match d with Up => Down | Down => Up end.
Definition keeps (f f' : fnc) (t : tlp) : Prop := plain f' /\ (type_of t <> CFG_WRITE_0 -> forall r, behind f' r = behind f r).
Inductive got (i : nat) (d : dir) (p : pkt) (f : fnc) (s : sw) : sw -> Prop :=
| g_fwd f' t' : keeps f f' (snd p) -> same_tlp (snd p) t' -> good t' -> (d = Down -> behind f (target (snd p)) = true) ->
    (d = Up -> t' = snd p /\ local_cfg (target t') = false /\ (behind f (target (snd p)) = false \/ sw_root s && is_up i = true)) ->
    got i d p f s (emit i d (fst p, t') (sw_set_br i f' s))
| g_free f' : keeps f f' (snd p) -> non_posted (type_of (snd p)) = false -> got i d p f s (sw_note (EFree i p None) (sw_set_br i f' s))
| g_ans f' c : keeps f f' (snd p) -> non_posted (type_of (snd p)) = true -> answers c (snd p) ->
    got i d p f s (emit_new i (opp d) c (sw_note (EFree i p (Some (sw_next s, c))) (sw_set_br i f' s)))
| g_kept f' : keeps f f' (snd p) -> is_cpl (snd p) = true -> got i d p f s (sw_note (EKept i p) (sw_set_br i f' s)).

Lemma same_as_seen f ty t : tlp_check t = Ok true -> 0 <= address t -> fmt_type t = Ok ty -> route_of ty t <> TNone -> behind f (route_of ty t) = true ->
  same_tlp t (as_seen f ty t) /\ good (as_seen f ty t).
Proof.
  intros C A T N B. assert (G : good t) by (split; [exact C|split; [exact A|exists ty; split; assumption]]). unfold as_seen.
  destruct (_ =? _); [|split; [left; reflexivity|exact G]].
  assert (Q : forall ty', (ty, ty') = (CFG_READ_1, CFG_READ_0) \/ (ty, ty') = (CFG_WRITE_1, CFG_WRITE_0) ->
    same_tlp t (set_type_ 4 t) /\ good (set_type_ 4 t)).
  { intros ty' H. destruct (type0 t ty ty' T H) as (E & K & F). rewrite E in K, F. split.
    - right. split; [reflexivity|]. rewrite (type_of_ok _ _ T), (type_of_ok _ _ F). destruct H as [H|H]; injection H as -> ->; tauto.
    - split; [rewrite K; exact C|]. split; [exact A|]. exists ty'. split; [exact F|]. destruct H as [H|H]; injection H as -> ->; discriminate. }
  destruct ty; try (split; [left; reflexivity|exact G]); eapply Q; [left|right]; reflexivity.
Qed.
Lemma keeps_reports f g m t : plain f -> reports f g m -> only_status m -> keeps f g t.
Proof. intros P R S. split; [exact (plain_reports _ _ _ R S P)|]. intros _ r. exact (reports_behind _ _ _ _ R S). Qed.
Lemma keeps_trans f g h t : keeps f g t -> keeps g h t -> keeps f h t.
Proof. intros [_ A] [P B]. split; [exact P|]. intros N r. rewrite (B N r). exact (A N r). Qed.
Lemma send_keeps c g g' t : plain g -> fn_upstream_send c g = Ok g' -> keeps g g' t.
Proof.
  unfold fn_upstream_send. destruct (tlp_check c) as [[]|]; cbn [bind py_assert]; try discriminate. intros P H. apply Ok_inj in H. subst g'.
  eapply keeps_reports; [exact P|apply reports_one|reflexivity].
Qed.
Lemma keeps_capture f t : plain f -> keeps f (capture t f) t.
Proof. intros P. split; [exact P|]. reflexivity. Qed.
Lemma handle_spec t ty f f' h : plain f -> fmt_type t = Ok ty -> br_handle t f = Ok (f', h) ->
  keeps f f' t /\ match h with Kept => is_cpl t = true | Answered c => non_posted ty = true /\ answers c t end.
Proof.
  intros P T. unfold br_handle. rewrite T. cbn [bind].
  assert (K : is_cpl t = match ty with CPL | CPL_DATA | CPL_LOCKED | CPL_LOCKED_DATA => true | _ => false end) by (unfold is_cpl; rewrite (type_of_ok _ _ T); reflexivity).
  destruct ty; try discriminate.
  all: try (intros H; apply Ok_inj in H; injection H as <- <-; split; [split; [exact P|reflexivity]|exact K]).
  - unfold handle_config_0_read. destruct (cfg_target t f).
    + destruct (br_read (capture t f) _) as [[v|]|]; cbn [bind]; try discriminate. unfold struct_pack_le.
      destruct (_ && _); cbn [bind]; [|discriminate].
      match goal with |- context [fn_upstream_send ?c ?g] => destruct (fn_upstream_send c g) as [g'|] eqn:E end; cbn [bind]; [|discriminate].
      intros H. apply Ok_inj in H. injection H as <- <-. split; [|split; [reflexivity|apply good_cpld; reflexivity]].
      eapply keeps_trans; [apply keeps_capture; exact P|]. eapply send_keeps; [|exact E]. exact (proj1 (keeps_capture f t P)).
    + match goal with |- context [fn_upstream_send ?c ?g] => destruct (fn_upstream_send c g) as [g'|] eqn:E end; cbn [bind]; [|discriminate].
      intros H. apply Ok_inj in H. injection H as <- <-. split; [eapply send_keeps; eassumption|]. split; [reflexivity|apply good_ur].
  - unfold handle_config_0_write. destruct (cfg_target t f).
    + destruct (unpack_l _) as [v|]; cbn [bind]; [|discriminate].
      match goal with |- context [fn_upstream_send ?c ?g] => destruct (fn_upstream_send c g) as [g'|] eqn:E end; cbn [bind]; [|discriminate].
      intros H. apply Ok_inj in H. injection H as <- <-. split; [|split; [reflexivity|apply good_cpl]].
      pose proof (proj1 (keeps_capture f t P)) as PC. pose proof (plain_write (Z.shiftr (address t) 2) v (first_be t) (capture t f) PC) as PW.
      set (w := br_write _ _ _ (capture t f)) in *. clearbody w. destruct (send_keeps _ _ _ t PW E) as [Q _]. split; [exact Q|].
      intros N. exfalso. apply N. exact (type_of_ok _ _ T).
    + match goal with |- context [fn_upstream_send ?c ?g] => destruct (fn_upstream_send c g) as [g'|] eqn:E end; cbn [bind]; [|discriminate].
      intros H. apply Ok_inj in H. injection H as <- <-. split; [eapply send_keeps; eassumption|]. split; [reflexivity|apply good_ur].
Qed.
(** Errors come from the configuration space of the bridge only. *)
Definition cfg_error (t : tlp) (e : exn) : Prop := (type_of t = CFG_READ_0 \/ type_of t = CFG_WRITE_0) /\ exists f, cfg_target t f = true /\ br_handle t f = Err e.
Lemma recv_got i d p f s : nth_error (sw_br s) i = Some f -> plain f -> good (snd p) ->
  (exists s', sw_recv i d p s = Ok s' /\ got i d p f s s') \/ (exists e, sw_recv i d p s = Err e /\ cfg_error (snd p) e).
Proof.
  intros F P (C & A & ty & T & N). destruct p as [n t]. cbn [fst snd] in *. unfold sw_recv. rewrite F. cbn [fst snd].
  pose proof (plain_bars f t ty P A) as B. pose proof (type_of_ok _ _ T) as TO.
  assert (TG : target t = route_of ty t) by (unfold target; rewrite TO; reflexivity).
  assert (HD : forall g, keeps f g t -> own g no_bars (route_of ty t) = true -> (d = Down \/ local_cfg (route_of ty t) = false) ->
    (exists s', ('(f0, h) <- br_handle t g ;;
      match h with
      | Kept => Ok (sw_note (EKept i (n, t)) (sw_set_br i f0 s))
      | Answered c => Ok (emit_new i Up c (sw_note (EFree i (n, t) (Some (sw_next s, c))) (sw_set_br i f0 s)))
      end) = Ok s' /\ got i d (n, t) f s s') \/
    (exists e, ('(f0, h) <- br_handle t g ;;
      match h with
      | Kept => Ok (sw_note (EKept i (n, t)) (sw_set_br i f0 s))
      | Answered c => Ok (emit_new i Up c (sw_note (EFree i (n, t) (Some (sw_next s, c))) (sw_set_br i f0 s)))
      end) = Err e /\ cfg_error t e)).
  { intros g K O D. destruct (br_handle t g) as [[g' h]|e] eqn:E; cbn [bind].
    - destruct (handle_spec t ty g g' h (proj1 K) T E) as [K' H]. left. destruct h as [|c].
      + eexists. split; [reflexivity|]. apply g_kept; [exact (keeps_trans _ _ _ _ K K')|exact H].
      + destruct H as [H1 H2]. assert (d = Down) as ->.
        { destruct D as [D|D]; [exact D|]. exfalso. clear - O D H1. destruct ty; try discriminate. }
        eexists. split; [reflexivity|]. change Up with (opp Down). apply (g_ans i Down (n, t)); [exact (keeps_trans _ _ _ _ K K')|cbn [snd]; rewrite TO; exact H1|exact H2].
    - right. exists e. split; [reflexivity|].
      assert (Q : ty = CFG_READ_0 \/ ty = CFG_WRITE_0).
      { unfold br_handle in E. rewrite T in E. cbn [bind] in E. clear - O N E. destruct ty; try discriminate; tauto. }
      split; [rewrite TO; exact Q|]. exists g. split; [|exact E]. clear - O Q. unfold cfg_target. destruct Q; subst; cbn [route_of own] in O; rewrite (Z.eqb_sym (device (completer_id t))), (Z.eqb_sym (func (completer_id t))); exact O. }
  destruct d.
  - destruct (downstream_recv (sw_root s && is_up i) t ty f no_bars C T N B) as (f' & E & R). rewrite E. cbn [bind]. clear E.
    assert (K : keeps f f' t).
    { eapply keeps_reports; [exact P|exact R|]. destruct (local_cfg _); [reflexivity|]. destruct (_ && _); [reflexivity|]. destruct (_ || _); reflexivity. }
    destruct (local_cfg (route_of ty t)) eqn:L.
    + left. eexists. split; [reflexivity|]. apply (g_ans i Up (n, t)); [exact K|cbn [snd]; rewrite TO; clear - L; destruct ty; try discriminate; reflexivity|apply good_ur].
    + destruct (negb _ && own f no_bars _) eqn:O.
      * apply HD; [exact K| |right; reflexivity]. rewrite (reports_own _ _ _ _ _ R). apply andb_true_iff in O. apply O.
      * destruct (_ || _) eqn:U.
        { left. eexists. split; [reflexivity|]. apply (g_fwd i Up (n, t) f s f' t); [exact K|left; reflexivity|split; [exact C|split; [exact A|exists ty; split; assumption]]|discriminate|].
          intros _. cbn [snd]. rewrite TG. split; [reflexivity|]. split; [exact L|]. destruct (behind f _); [right|left; reflexivity]. rewrite orb_false_r in U. exact U. }
        destruct (non_posted ty) eqn:NP; left; eexists; (split; [reflexivity|]).
        { apply (g_ans i Up (n, t)); [exact K|cbn [snd]; rewrite TO; exact NP|apply good_ur]. }
        { apply (g_free i Up (n, t)); [exact K|cbn [snd]; rewrite TO; exact NP]. }
  - destruct (upstream_recv t ty f no_bars C T N B) as (f' & E & R). rewrite E. cbn [bind]. clear E.
    assert (K : keeps f f' t).
    { eapply keeps_reports; [exact P|exact R|]. destruct (own _ _ _); [reflexivity|]. destruct (behind _ _); reflexivity. }
    destruct (own f no_bars _) eqn:O.
    + apply HD; [exact K| |left; reflexivity]. rewrite (reports_own _ _ _ _ _ R). exact O.
    + destruct (behind f _) eqn:U.
      * destruct (same_as_seen f ty t C A T N U) as [S G]. left. eexists. split; [reflexivity|].
        apply (g_fwd i Down (n, t)); [exact K|exact S|exact G|intros _; cbn [snd]; rewrite TG; exact U|discriminate].
      * destruct (non_posted ty) eqn:NP; left; eexists; (split; [reflexivity|]).
        { apply (g_ans i Down (n, t)); [exact K|cbn [snd]; rewrite TO; exact NP|apply good_ur]. }
        { apply (g_free i Down (n, t)); [exact K|cbn [snd]; rewrite TO; exact NP]. }
Qed.
