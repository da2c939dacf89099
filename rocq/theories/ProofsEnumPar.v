(** The programs of the host over two systems whose configuration accesses correspond. *)
From Verif Require Import Base BaseProofs ModelUtils ModelTags ModelPci ModelPciCaps ModelDriver.
From Verif Require ModelMsi.

Definition simr {A B} (Q : A -> B -> Prop) (X : res A) (Y : res B) : Prop :=
  match X, Y with Ok a, Ok b => Q a b | Err e, Err e' => e = e' | _, _ => False end.
Lemma simr_bind {A B A' B'} (Q : A -> B -> Prop) (Q' : A' -> B' -> Prop) X Y F G : simr Q X Y -> (forall a b, Q a b -> simr Q' (F a) (G b)) -> simr Q' (bind X F) (bind Y G).
Proof. intros H K. destruct X as [a|e], Y as [b|e']; cbn in H |- *; try contradiction; auto. Qed.

Section Par.
Context {S T : Type} (R : S -> T -> Prop) (ok : Z -> Z -> Prop)
  (cr : Z -> Z -> S -> res (S * list Z)) (cw : Z -> list Z -> S -> res S) (cr' : Z -> Z -> T -> res (T * list Z)) (cw' : Z -> list Z -> T -> res T).
Definition RV {A} (p : S * A) (q : T * A) : Prop := R (fst p) (fst q) /\ snd p = snd q.
Hypothesis CR : forall addr n s t, R s t -> simr RV (cr addr n s) (cr' addr n t).
Hypothesis CW : forall addr d s t, R s t -> ok addr (zlen d) -> bytes_ok d -> simr R (cw addr d s) (cw' addr d t).

Lemma par_let {A A' B'} (Q' : A' -> B' -> Prop) (X : res (S * A)) (Y : res (T * A)) F G : simr RV X Y -> (forall s t x, R s t -> simr Q' (F (s, x)) (G (t, x))) -> simr Q' (bind X F) (bind Y G).
Proof. intros H K. apply (simr_bind RV Q' X Y F G H). intros [s x] [t y] [H1 H2]. cbn [fst snd] in *. subst y. apply K, H1. Qed.
Lemma par_ret {A} s t (x : A) : R s t -> simr RV (Ok (s, x)) (Ok (t, x)).
Proof. intros H. split; [exact H|reflexivity]. Qed.
Lemma par_pure {A A' B'} (Q' : A' -> B' -> Prop) (X : res A) F G : (forall a, X = Ok a -> simr Q' (F a) (G a)) -> simr Q' (bind X F) (bind X G).
Proof. destruct X as [a|e]; cbn; auto. Qed.
Lemma par_byte addr s t : R s t -> simr RV (cfg_read_byte cr addr s) (cfg_read_byte cr' addr t).
Proof. intros H. unfold cfg_read_byte. apply (par_let RV _ _ _ _ (CR addr 1 s t H)). intros s1 t1 d H1. destruct d; [reflexivity|apply par_ret, H1]. Qed.
Lemma par_word addr s t : R s t -> simr RV (cfg_read_word cr addr s) (cfg_read_word cr' addr t).
Proof. intros H. unfold cfg_read_word. apply (par_let RV _ _ _ _ (CR addr 2 s t H)). intros s1 t1 d H1. apply par_ret, H1. Qed.
Lemma par_dword addr s t : R s t -> simr RV (cfg_read_dword cr addr s) (cfg_read_dword cr' addr t).
Proof. intros H. unfold cfg_read_dword. apply (par_let RV _ _ _ _ (CR addr 4 s t H)). intros s1 t1 d H1. apply par_ret, H1. Qed.
Lemma bytes_to n v d : to_bytes n v = Ok d -> zlen d = Z.of_nat n /\ bytes_ok d.
Proof. unfold to_bytes. destruct (_ && _); [|discriminate]. intros E. injection E as <-. split; [unfold zlen; rewrite le_bytes_length; reflexivity|apply le_bytes_ok]. Qed.
Lemma par_wword addr v s t : R s t -> ok addr 2 -> simr R (cfg_write_word cw addr v s) (cfg_write_word cw' addr v t).
Proof. intros H K. unfold cfg_write_word. apply par_pure. intros d E. destruct (bytes_to 2 v d E) as [L B]. apply CW; [exact H|rewrite L; exact K|exact B]. Qed.
Lemma par_wdword addr v s t : R s t -> ok addr 4 -> simr R (cfg_write_dword cw addr v s) (cfg_write_dword cw' addr v t).
Proof. intros H K. unfold cfg_write_dword. apply par_pure. intros d E. destruct (bytes_to 4 v d E) as [L B]. apply CW; [exact H|rewrite L; exact K|exact B]. Qed.

(** ** BARs *)
Lemma par_probe save addr pat s t : R s t -> ok addr 4 -> simr (fun p q => R (fst (fst p)) (fst (fst q)) /\ snd (fst p) = snd (fst q) /\ snd p = snd q) (probe cr cw save addr pat s) (probe cr' cw' save addr pat t).
Proof.
  intros H K. unfold probe. apply (par_let _ _ _ _ _ (par_dword save s t H)). intros s1 t1 orig H1. apply (simr_bind R _ _ _ _ _ (par_wdword addr pat s1 t1 H1 K)). intros s2 t2 H2.
  apply (par_let _ _ _ _ _ (par_dword addr s2 t2 H2)). intros s3 t3 v H3. apply (simr_bind R _ _ _ _ _ (par_wdword addr orig s3 t3 H3 K)). intros s4 t4 H4. cbn. auto.
Qed.
Lemma par_probe_let {A' B'} (Q' : A' -> B' -> Prop) save addr pat s t F G : R s t -> ok addr 4 -> (forall s t x y, R s t -> simr Q' (F (s, x, y)) (G (t, x, y))) -> simr Q' (bind (probe cr cw save addr pat s) F) (bind (probe cr' cw' save addr pat t) G).
Proof.
  intros H K L. apply (simr_bind _ Q' _ _ F G (par_probe save addr pat s t H K)). intros [[s1 x] y] [[t1 x'] y'] (H1 & H2 & H3). cbn [fst snd] in *. subst x' y'. apply L, H1.
Qed.
Lemma par_loop cnt : (forall j, 0 <= j < cnt -> ok (0x10 + j * 4) 4) -> forall fuel bar p s t, 0 <= bar -> R s t -> simr RV (read_bars_loop cr cw fuel cnt bar p s) (read_bars_loop cr' cw' fuel cnt bar p t).
Proof.
  intros K. induction fuel as [|fuel IH]; intros bar p s t B H; cbn [read_bars_loop]; [apply par_ret, H|]. destruct (Z.ltb_spec bar cnt) as [C|C]; [|apply par_ret, H].
  apply par_probe_let; [exact H|apply K; lia|]. intros s1 t1 orig v H1. destruct (v =? 0); [apply IH; [lia|exact H1]|]. destruct (zbool (Z.land v 1)); [apply IH; [lia|exact H1]|]. destruct (zbool (Z.land v 4)); [|apply IH; [lia|exact H1]].
  destruct (Z.leb_spec (cnt - 1) bar) as [D|D]; [reflexivity|]. apply par_probe_let; [exact H1|apply K; lia|]. intros s2 t2 o2 v2 H2. apply IH; [lia|exact H2].
Qed.
Lemma par_bars cnt rom p s t : R s t -> ok 4 2 -> (forall j, 0 <= j < cnt -> ok (0x10 + j * 4) 4) -> ok rom 4 -> simr RV (read_bars cr cw cnt rom p s) (read_bars cr' cw' cnt rom p t).
Proof.
  intros H K1 K2 K3. unfold read_bars. apply (par_let _ _ _ _ _ (par_word 4 s t H)). intros s1 t1 c H1. cbv zeta. apply (simr_bind R).
  - destruct (negb _); [apply par_wword; assumption|exact H1].
  - intros s2 t2 H2. apply (par_let _ _ _ _ _ (par_loop cnt K2 _ 0 p s2 t2 ltac:(lia) H2)). intros s3 t3 p3 H3. destruct (zbool rom); [|apply par_ret, H3]. apply par_probe_let; [exact H3|exact K3|]. intros s4 t4 o v H4. apply par_ret, H4.
Qed.

(** ** Capabilities *)
Lemma par_walk : forall fuel ptr l s t, R s t -> simr RV (walk_list cr fuel ptr l s) (walk_list cr' fuel ptr l t).
Proof.
  induction fuel as [|fuel IH]; intros ptr l s t H; cbn [walk_list]; [reflexivity|]. destruct (ptr >? 0); [|apply par_ret, H]. apply (par_let _ _ _ _ _ (CR ptr 2 s t H)). intros s1 t1 d H1.
  destruct d as [|v0 [|v1 d]]; try reflexivity. apply IH, H1.
Qed.
Lemma par_walk_ext : forall fuel ptr l s t, R s t -> simr RV (walk_ext_list cr fuel ptr l s) (walk_ext_list cr' fuel ptr l t).
Proof.
  induction fuel as [|fuel IH]; intros ptr l s t H; cbn [walk_ext_list]; [reflexivity|]. destruct (ptr >? 0); [|apply par_ret, H]. apply (par_let _ _ _ _ _ (par_dword ptr s t H)). intros s1 t1 v H1.
  destruct (_ || _); [apply par_ret, H1|]. apply IH, H1.
Qed.
Lemma par_capabilities fuel s t : R s t -> simr RV (walk_capabilities cr fuel s) (walk_capabilities cr' fuel t).
Proof.
  intros H. unfold walk_capabilities. apply (par_let _ _ _ _ _ (par_byte 0x34 s t H)). intros s1 t1 p H1. apply (par_let _ _ _ _ _ (par_walk fuel _ [] s1 t1 H1)). intros s2 t2 l H2.
  apply (par_let _ _ _ _ _ (par_walk_ext fuel _ [] s2 t2 H2)). intros s3 t3 x H3. apply par_ret, H3.
Qed.
Lemma par_cword p k addr s t : R s t -> simr RV (cap_read_word cr p k addr s) (cap_read_word cr' p k addr t).
Proof.
  intros H. unfold cap_read_word, capability_read. apply (par_let RV); [|intros s1 t1 d H1; apply par_ret, H1]. apply par_pure. intros o _. apply CR, H.
Qed.
Lemma par_cdword p k addr s t : R s t -> simr RV (cap_read_dword cr p k addr s) (cap_read_dword cr' p k addr t).
Proof.
  intros H. unfold cap_read_dword, capability_read. apply (par_let RV); [|intros s1 t1 d H1; apply par_ret, H1]. apply par_pure. intros o _. apply CR, H.
Qed.
Lemma par_cwword p k addr v s t : R s t -> (forall o, cap_offset k p = Ok o -> ok (addr + o) 2) -> simr R (cap_write_word cw p k addr v s) (cap_write_word cw' p k addr v t).
Proof.
  intros H K. unfold cap_write_word, capability_write. apply par_pure. intros d E. destruct (bytes_to 2 v d E) as [L B]. apply par_pure. intros o Eo. apply CW; [exact H|rewrite L; exact (K o Eo)|exact B].
Qed.
Lemma par_cwdword p k addr v s t : R s t -> (forall o, cap_offset k p = Ok o -> ok (addr + o) 4) -> simr R (cap_write_dword cw p k addr v s) (cap_write_dword cw' p k addr v t).
Proof.
  intros H K. unfold cap_write_dword, capability_write. apply par_pure. intros d E. destruct (bytes_to 4 v d E) as [L B]. apply par_pure. intros o Eo. apply CW; [exact H|rewrite L; exact (K o Eo)|exact B].
Qed.

(** ** Control *)
Lemma par_crs p s t : R s t -> (forall o, cap_offset EXP p = Ok o -> ok (0x1c + o) 2) -> simr R (enable_crs cr cw p s) (enable_crs cr' cw' p t).
Proof.
  intros H K. unfold enable_crs. destruct (negb (is_pcie p)); [exact H|]. apply (par_let _ _ _ _ _ (par_cdword p EXP 0x1e s t H)). intros s1 t1 v H1. destruct (zbool _); [|exact H1].
  apply (par_let _ _ _ _ _ (par_cword p EXP 0x1c s1 t1 H1)). intros s2 t2 c H2. cbv zeta. destruct (negb _); [apply par_cwword; assumption|exact H2].
Qed.
Lemma par_read_mps p s t : R s t -> simr RV (read_mps cr p s) (read_mps cr' p t).
Proof. intros H. unfold read_mps. apply (par_let _ _ _ _ _ (par_cdword p EXP 8 s t H)). intros s1 t1 v H1. apply par_ret, H1. Qed.
Lemma par_write_mps p mpss v s t : R s t -> (forall o, cap_offset EXP p = Ok o -> ok (8 + o) 4) -> simr R (write_mps cr cw p mpss v s) (write_mps cr' cw' p mpss v t).
Proof.
  intros H K. unfold write_mps. destruct (_ || _); [reflexivity|]. apply (par_let _ _ _ _ _ (par_cdword p EXP 8 s t H)). intros s1 t1 c H1. cbv zeta. destruct (negb _); [apply par_cwdword; assumption|exact H1].
Qed.
Lemma par_tags p devcap s t : R s t -> (forall o, cap_offset EXP p = Ok o -> ok (8 + o) 4) -> simr R (configure_extended_tags cr cw p devcap s) (configure_extended_tags cr' cw' p devcap t).
Proof.
  intros H K. unfold configure_extended_tags. destruct (negb (is_pcie p)); [exact H|]. destruct (negb _); [exact H|]. apply (par_let _ _ _ _ _ (par_cdword p EXP 8 s t H)). intros s1 t1 c H1.
  destruct (negb _); [apply par_cwdword; assumption|exact H1].
Qed.
Lemma par_serr ty s t : R s t -> ok 0x3e 2 -> simr R (configure_serr cr cw ty s) (configure_serr cr' cw' ty t).
Proof.
  intros H K. unfold configure_serr. destruct (negb _); [exact H|]. apply (par_let _ _ _ _ _ (par_word 0x3e s t H)). intros s1 t1 c H1. destruct (negb _); [apply par_wword; assumption|exact H1].
Qed.
Lemma par_enable co id b e s t : R s t -> (co id <> 0 -> ok (2 + co id) 2) -> simr R (ModelMsi.set_enable cr cw co id b e s) (ModelMsi.set_enable cr' cw' co id b e t).
Proof.
  intros H K. unfold ModelMsi.set_enable, ModelMsi.cap_read_word, ModelMsi.cap_write_word. destruct (zbool (co id)) eqn:Z0; [|reflexivity].
  apply (par_let _ _ _ _ _ (par_word (2 + co id) s t H)). intros s1 t1 c H1. cbv zeta. destruct (negb _); [|exact H1]. apply par_wword; [exact H1|]. apply K. unfold zbool in Z0. lia.
Qed.
Lemma par_init co q s t : R s t -> (forall id, In id [ModelMsi.MSI_ID; ModelMsi.MSIX_ID] -> co id <> 0 -> ok (2 + co id) 2) ->
  simr (fun p p' => R (snd p) (snd p') /\ fst p = fst p') (ModelMsi.init_capabilities cr cw co q s) (ModelMsi.init_capabilities cr' cw' co q t).
Proof.
  intros H K. unfold ModelMsi.init_capabilities. apply (simr_bind (fun p p' => R (snd p) (snd p') /\ fst p = fst p')).
  - destruct (zbool (co ModelMsi.MSI_ID)); [|split; [exact H|reflexivity]]. unfold ModelMsi.msi_set_enable. apply (simr_bind R); [apply par_enable; [exact H|apply K; left; reflexivity]|]. intros s1 t1 H1. split; [exact H1|reflexivity].
  - intros [q1 s1] [q2 t1] [H1 H2]. cbn [fst snd] in *. subst q2. destruct (zbool (co ModelMsi.MSIX_ID)); [|split; [exact H1|reflexivity]].
    unfold ModelMsi.msix_set_enable. apply (simr_bind R); [apply par_enable; [exact H1|apply K; right; left; reflexivity]|]. intros s2 t2 H2. split; [exact H2|reflexivity].
Qed.
End Par.
