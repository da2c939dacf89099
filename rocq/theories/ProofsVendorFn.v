(** The functions of the vendor device models. *)
From Verif Require Import Base BaseProofs Bits ModelUtils ModelTlp ModelAttrs ModelCaps ModelCapList ModelConfig ModelFunction ModelHost ModelPci ModelPciCaps
  ModelVendorFn SpecRegs SpecConfig SpecHost SpecCapList SpecCapFn SpecPciCaps SpecVendorFn ProofsRegs ProofsCaps ProofsCapList ProofsCapFn ProofsCapWalk
  ProofsHost ProofsPciCaps ProofsBar.

(** ** The list after construction *)
Definition legacy (v : vendor) (c : pf_cfg) : list nat :=
  let a := match pf_msi c with Some _ => [i_msi] | None => [] end in
  let x := match pf_msix c with Some _ => [i_msix] | None => [] end in
  i_pm :: a ++ match v with VS10 => i_pcie :: x | _ => x ++ [i_pcie] end.
Definition place (v : vendor) (i : nat) : Z :=
  match v, i with
  | VUs, 0%nat => 0x20 | VUs, 1%nat => 0x30 | VUs, 2%nat => 0x24 | VUs, 3%nat => 0x2c | VUs, 4%nat => 0x40 | VUs, _ => 0xc0
  | VUsp, 0%nat => 0x10 | VUsp, 1%nat => 0x1c | VUsp, 2%nat => 0x12 | VUsp, 3%nat => 0x18 | VUsp, 4%nat => 0x40 | VUsp, _ => 0x70
  | VS10, 0%nat => 0x10 | VS10, 1%nat => 0x1c | VS10, 2%nat => 0x14 | VS10, 3%nat => 0x2c | VS10, 4%nat => 0x40 | VS10, _ => 0x62
  | VPtile, 0%nat => 0x10 | VPtile, 1%nat => 0x2c | VPtile, 2%nat => 0x14 | VPtile, 3%nat => 0x1c | VPtile, 4%nat => 0x40 | VPtile, _ => 0x62
  end.
(** The legacy capabilities alone, linked. *)
Definition alone (v : vendor) (c : pf_cfg) : heap := link (legacy v c) (fun i => c_set_off (Some (place v i)) (vendor_heap i)).
Record shaped (v : vendor) (c : pf_cfg) (f : fnc) : Prop := mkShaped {
  sh_caps : f_caps f = legacy v c ++ [i_aer; i_pxc];
  sh_ecaps : f_ecaps f = [];
  sh_ptr : f_attr f fn_capabilities_ptr = 4 * place v i_pm;
  sh_each : forall i, In i (legacy v c ++ [i_aer; i_pxc]) -> off (f_heap f i) = place v i /\ c_len (f_heap f i) = c_len (vendor_heap i) /\
    c_kind (f_heap f i) = c_kind (vendor_heap i) /\ c_id (f_heap f i) = c_id (vendor_heap i);
  sh_next : forall i, In i (legacy v c) -> c_next (f_heap f i) mod 256 = c_next (alone v c i) }.
Ltac each_in H := repeat (destruct H as [<-|H]; [|]); [..|destruct H].
Lemma vendor_shaped v id pf mps tag c : shaped v c (vendor_fn v id pf mps tag c).
Proof.
  destruct c as [m x]. constructor.
  - destruct v, m, x; vm_compute; reflexivity.
  - destruct v, m, x; vm_compute; reflexivity.
  - destruct v, m, x; vm_compute; reflexivity.
  - intros i H. destruct v, m, x; cbn in H; each_in H; vm_compute; auto.
  - intros i H. destruct v, m, x; cbn in H; each_in H; vm_compute; reflexivity.
Qed.
Lemma shaped_step v c f op : shaped v c f -> (forall x, op <> VFn fn_capabilities_ptr x) -> shaped v c (vstep f op).
Proof.
  intros [A B C D E] N. destruct op as [reg data mask|i a x|a x|id]; cbn [vstep].
  - destruct (ep_write_keeps reg data mask f) as (K1 & K2 & K3 & K4). constructor; try congruence.
    + intros i H. destruct (K4 i) as (P & K & I1 & _). destruct (D i H) as (D1 & D2 & D3 & D4). rewrite (pos_off _ _ P), K, I1.
      destruct P as (_ & _ & ->). auto.
    + intros i H. destruct (K4 i) as ((_ & -> & _) & _). auto.
  - constructor; try assumption; intros j H; unfold cap_assign, with_heap, hset; cbn [f_heap]; destruct (Nat.eqb_spec j i) as [->|]; auto.
    + exact (D i H).
    + exact (E i H).
  - constructor; try assumption. cbn [with_attr f_attr]. rewrite aset_ne; [exact C|]. intros E0. apply (N x). rewrite E0. reflexivity.
  - constructor; assumption.
Qed.
Lemma shaped_run v c ops : forall f, shaped v c f -> ptr_kept ops -> shaped v c (vrun ops f).
Proof.
  induction ops as [|op ops IH]; intros f H N; [exact H|]. apply (IH (vstep f op)).
  - apply shaped_step; [exact H|]. intros x ->. apply (N x). left. reflexivity.
  - intros x X. apply (N x). right. exact X.
Qed.

(** ** The walk *)
Lemma shaped_disjoint v c f : shaped v c f -> disjoint (f_heap f) (f_caps f).
Proof.
  intros [A _ _ D _]. rewrite A. intros i j Hi Hj N. unfold apart. destruct (D i Hi) as (-> & -> & _), (D j Hj) as (-> & -> & _).
  destruct c as [m x].
  assert (G : forall k, In k (legacy v (mkPf m x) ++ [i_aer; i_pxc]) -> (k < 6)%nat).
  { intros k H. destruct v, m, x; cbn in H; each_in H; cbv; lia. }
  apply G in Hi, Hj. clear -Hi Hj N.
  do 6 (destruct i as [|i]; [do 6 (destruct j as [|j]; [first [congruence|destruct v; cbn; lia]|]); lia|]). lia.
Qed.
Lemma legacy_mod v n i :
  let x := Z.lor (Z.lor (Z.land v 0xffff0000) (Z.shiftl (Z.land n 0xff) 8)) (Z.land i 0xff) in
  0 <= x < 2 ^ 32 /\ x mod 256 = i mod 256 /\ x / 256 mod 256 = n mod 256.
Proof.
  assert (E : Z.land n 0xff = Z.land (n mod 256) 0xff).
  { change 0xff with (Z.ones 8). rewrite !Z.land_ones by lia. change (2 ^ 8) with 256. rewrite Z.mod_mod by lia. reflexivity. }
  rewrite E. apply legacy_head. apply Z.mod_pos_bound. lia.
Qed.
Lemma legacy_facts v c i : In i (legacy v c) -> 16 <= place v i < 64 /\ off (alone v c i) = place v i /\ c_id (alone v c i) = c_id (vendor_heap i) /\
  is_ext (c_kind (vendor_heap i)) = false /\ 0 < c_len (vendor_heap i) /\ forall s, kind_read (c_kind (vendor_heap i)) s 0 <> None.
Proof.
  intros H. destruct c as [m x].
  destruct v, m, x; cbn in H; each_in H; (split; [cbn; lia|]; split; [reflexivity|]; split; [reflexivity|]; split; [reflexivity|]; split; [reflexivity|]; intros s; discriminate).
Qed.
Lemma alone_chained v c : chained (alone v c) (legacy v c).
Proof. destruct c as [m x]. destruct v, m, x; vm_compute; repeat split. Qed.
Lemma alone_entries v c : map (fun i => (c_id (alone v c i) mod 256, 4 * off (alone v c i))) (legacy v c) = expected v c.
Proof. destruct c as [m x]. destruct v, m, x; vm_compute; reflexivity. Qed.
Lemma ep_kind : In (ep_read, ep_write, cfg_masks ep_rw ep_w1c (tab [(3, 0x40000000)])) cfg_kinds.
Proof. right. left. reflexivity. Qed.
Lemma vendor_walk v c f tg crs dev fuel : shaped v c f -> at_id dev f -> (5 <= fuel)%nat ->
  walk_capabilities (config_read (cfg_deliver ep_read ep_write tg) crs dev) fuel f = Ok (with_id dev f, mkFound (expected v c) []).
Proof.
  intros S0 A F. pose proof ep_kind as W. pose proof (kinds_spaces _ _ _ W) as SP. pose proof (shaped_disjoint _ _ _ S0) as DJ.
  destruct S0 as [S1 S2 S3 S4 S5].
  assert (WI : forall r, ep_read (with_id dev f) r = ep_read f r) by (intros r; exact (proj1 (kinds_id _ _ _ W dev f r))).
  assert (R : ep_read f 13 = Ok (Some (4 * place v i_pm))).
  { change (ep_read f 13) with (@Ok (option Z) (Some (Z.land (f_attr f fn_capabilities_ptr) 0xff))). rewrite S3. destruct v; reflexivity. }
  unfold walk_capabilities. change 0x34 with (4 * 13).
  rewrite (read_one _ _ _ tg crs dev W f 13 _ A R) by (destruct v; cbn; lia). cbn [bind].
  replace (Z.land ((4 * place v i_pm) mod 256) 0xfc) with (match legacy v c with i :: _ => off (alone v c i) * 4 | [] => 0 end)
    by (destruct c as [m x]; destruct v, m, x; reflexivity).
  rewrite (walk_list_ok _ _ _ tg crs dev W (alone v c) (legacy v c) fuel [] (with_id dev f) (alone_chained v c) (at_own dev f)).
  2:{ destruct c as [m x]; destruct v, m, x; cbn; lia. }
  2:{ intros i Hi. destruct (legacy_facts v c i Hi) as (P & O & ID & K & L & HD). rewrite O, ID. split; [exact P|].
      assert (Hi' : In i (legacy v c ++ [i_aer; i_pxc])) by (apply in_or_app; left; exact Hi).
      destruct (S4 i Hi') as (Q1 & Q2 & Q3 & Q4). rewrite WI, (proj1 (space_read _ _ _ _ SP) P).
      assert (E : caps_read (f_heap f) (f_caps f) (place v i) = cap_read (f_heap f i) 0).
      { rewrite <- Q1, <- (owner_read (f_heap f) (f_caps f)); [f_equal; lia|exact DJ|rewrite S1; exact Hi'|lia]. }
      rewrite E. unfold cap_read. rewrite Q3, K. change (0 =? 0) with true. cbv iota. specialize (HD (c_attr (f_heap f i))).
      destruct (kind_read (c_kind (vendor_heap i)) (c_attr (f_heap f i)) 0) as [w|]; [|congruence].
      eexists. split; [reflexivity|]. rewrite <- (S5 i Hi), Q4. apply legacy_mod. }
  cbn [bind app]. rewrite alone_entries.
  replace (match legacy v c with [] => with_id dev f | _ :: _ => with_id dev (with_id dev f) end) with (with_id dev f) by (destruct (legacy v c); reflexivity).
  destruct fuel as [|fuel]; [lia|]. cbn [walk_ext_list]. change (0x100 >? 0) with true. cbv iota. change 0x100 with (4 * 64).
  rewrite (read_four _ _ _ tg crs dev W (with_id dev f) 64 0 (at_own dev f)); [reflexivity| |lia].
  rewrite WI, (proj2 (space_read _ _ _ _ SP)) by lia. rewrite S2. reflexivity.
Qed.

(** ** Fields that configuration writes do not change *)
Definition ro (k : kind) : list attr :=
  match k with
  | KPcie => [pe_max_payload_size_supported; pe_pcie_device_type; pe_extended_tag_supported; pe_current_link_speed; pe_negotiated_link_width; pe_max_link_speed]
  | KMsi => [ms_msi_multiple_message_capable; ms_msi_64bit_address_capable; ms_msi_per_vector_mask_capable]
  | KMsix => [mx_msix_table_size; mx_msix_table_bar_indicator_register; mx_msix_table_offset; mx_msix_pba_bar_indicator_register; mx_msix_pba_offset]
  | _ => []
  end.
Ltac keep_ro H := each_in H; repeat match goal with |- (if ?b then _ else _) _ = _ => destruct b end; keep_attr.
Lemma kind_write_ro k a reg data mask s : In a (ro k) -> kind_write k reg data mask s a = s a.
Proof.
  intros H. destruct k; cbn [ro] in H; try destruct H.
  - subst a. cbn [kind_write]. unfold pec_write. cbv zeta. repeat match goal with |- (if ?b then _ else _) _ = _ => destruct b end; keep_attr.
  - cbn [kind_write]. unfold pec_write. cbv zeta. keep_ro H.
  - subst a. cbn [kind_write]. unfold msc_write. cbv zeta. repeat match goal with |- (if ?b then _ else _) _ = _ => destruct b end; keep_attr.
  - cbn [kind_write]. unfold msc_write. cbv zeta. keep_ro H.
  - subst a. cbn [kind_write]. unfold mxc_write. cbv zeta. repeat match goal with |- (if ?b then _ else _) _ = _ => destruct b end; keep_attr.
  - cbn [kind_write]. unfold mxc_write. cbv zeta. keep_ro H.
Qed.
Definition ro_kept (h h' : heap) : Prop := forall j a, In a (ro (c_kind (h j))) -> c_attr (h' j) a = c_attr (h j) a.
Lemma caps_write_ro reg data mask l h : ro_kept h (caps_write reg data mask l h).
Proof.
  intros j a H. unfold caps_write. destruct (find_by_reg h l reg) as [i|]; [|reflexivity]. unfold hset. destruct (Nat.eqb_spec j i) as [->|]; [|reflexivity].
  unfold cap_write, c_set_attr. cbn [c_attr]. apply kind_write_ro. exact H.
Qed.
Lemma ep_write_ro reg data mask f : ro_kept (f_heap f) (f_heap (ep_write reg data mask f)).
Proof.
  unfold ep_write. repeat match goal with |- context [if reg =? ?k then _ else _] => destruct (reg =? k); [intros j a _; reflexivity|] end.
  unfold fn_write. repeat match goal with |- context [if reg =? ?k then _ else _] => destruct (reg =? k); [intros j a _; reflexivity|] end.
  destruct ((0x10 <=? reg) && (reg <? 0x40)); [apply caps_write_ro|].
  destruct ((0x40 <=? reg) && (reg <? 0x400)); [apply caps_write_ro|]. intros j a _. reflexivity.
Qed.
Lemma vrun_ro ops : forall f, caps_kept ops -> ro_kept (f_heap f) (f_heap (vrun ops f)).
Proof.
  induction ops as [|op ops IH]; intros f N; [intros j a _; reflexivity|]. cbn [vrun fold_left]. fold (vrun ops (vstep f op)).
  assert (K : ro_kept (f_heap f) (f_heap (vstep f op)) /\ forall j, c_kind (f_heap (vstep f op) j) = c_kind (f_heap f j)).
  { destruct op as [reg data mask|i a x|a x|id].
    - split; [apply ep_write_ro|]. intros j. apply (ep_write_keeps reg data mask f).
    - exfalso. apply (N i a x). left. reflexivity.
    - split; [intros j b _; reflexivity|reflexivity].
    - split; [intros j b _; reflexivity|reflexivity]. }
  destruct K as (K1 & K2). intros j a H. rewrite (IH (vstep f op)).
  - apply K1. exact H.
  - intros i b x X. apply (N i b x). right. exact X.
  - rewrite K2. exact H.
Qed.

(** ** Reads of the capabilities *)
Section Caps.
Context (v : vendor) (c : pf_cfg) (f : fnc) (S0 : shaped v c f) (tg : Z -> Z) (crs : option bool) (dev : pcie_id) (A : at_id dev f).
Local Notation cr := (config_read (cfg_deliver ep_read ep_write tg) crs dev).
Lemma vendor_reg i r : In i (legacy v c) -> 0 <= r < c_len (vendor_heap i) -> place v i + r < 64 -> ep_read f (place v i + r) = cap_read (f_heap f i) r.
Proof.
  intros Hi Hr B. pose proof ep_kind as W. pose proof (kinds_spaces _ _ _ W) as SP.
  assert (Hi' : In i (legacy v c ++ [i_aer; i_pxc])) by (apply in_or_app; left; exact Hi).
  destruct (legacy_facts v c i Hi) as (P & _). destruct (sh_each _ _ _ S0 i Hi') as (Q1 & Q2 & _).
  rewrite (proj1 (space_read _ _ _ _ SP)) by lia. rewrite <- Q1. apply owner_read; [exact (shaped_disjoint _ _ _ S0)|rewrite (sh_caps _ _ _ S0); exact Hi'|lia].
Qed.
Lemma vendor_dword i r w : In i (legacy v c) -> 0 <= r < c_len (vendor_heap i) -> place v i + r < 64 ->
  cap_read (f_heap f i) r = Ok (Some w) -> 0 <= w < 2 ^ 32 -> cfg_read_dword cr (4 * (place v i + r)) f = Ok (with_id dev f, w).
Proof.
  intros Hi Hr B E V. pose proof ep_kind as W. apply (read_four _ _ _ tg crs dev W f); [exact A|rewrite vendor_reg by assumption; exact E|exact V].
Qed.
Lemma vendor_half i r w : In i (legacy v c) -> 0 <= r < c_len (vendor_heap i) -> place v i + r < 64 ->
  cap_read (f_heap f i) r = Ok (Some w) -> 0 <= w < 2 ^ 32 ->
  cr (4 * (place v i + r) + 2) 2 f = Ok (with_id dev f, [w / 65536 mod 256; w / 16777216 mod 256]).
Proof.
  intros Hi Hr B E V. pose proof ep_kind as W. apply (read_high _ _ _ tg crs dev W f); [exact A|rewrite vendor_reg by assumption; exact E|exact V].
Qed.
End Caps.

(** ** What the host reads *)
Lemma msi_lookup v c n : pf_msi c = Some n -> In i_msi (legacy v c) /\ cap_offset (CapId 0x05) (mkFound (expected v c) []) = Ok (4 * place v i_msi).
Proof. destruct c as [m x]. cbn [pf_msi]. intros ->. destruct v, x; (split; [vm_compute; tauto|reflexivity]). Qed.
Lemma msix_lookup v c x : pf_msix c = Some x -> In i_msix (legacy v c) /\ cap_offset (CapId 0x11) (mkFound (expected v c) []) = Ok (4 * place v i_msix).
Proof. destruct c as [m y]. cbn [pf_msix]. intros ->. destruct v, m; (split; [vm_compute; tauto|reflexivity]). Qed.
Lemma pcie_lookup v c : In i_pcie (legacy v c) /\ get_capability_offset (CapId 0x10) (mkFound (expected v c) []) = Some (4 * place v i_pcie).
Proof. destruct c as [m x]. destruct v, m, x; (split; [vm_compute; tauto|reflexivity]). Qed.
Ltac bools := repeat match goal with |- context [Z.b2z ?b] => let x := fresh "b" in let H := fresh "H" in
    set (x := Z.b2z b); assert (H : 0 <= x < 2) by (unfold x; destruct b; cbn; lia); clearbody x end.
Lemma range32 X : Z.land X 0xffffffff = X -> 0 <= X < 2 ^ 32.
Proof. intros E. rewrite <- E. change 0xffffffff with (Z.ones 32). rewrite Z.land_ones by lia. apply Z.mod_pos_bound. lia. Qed.
Lemma slice_of X k m y : 0 <= k -> 0 <= m -> Z.land (Z.shiftr X k) (Z.ones m) = y -> X / 2 ^ k mod 2 ^ m = y.
Proof. intros H1 H2 E. rewrite <- E, Z.land_ones, Z.shiftr_div_pow2 by assumption. reflexivity. Qed.

Lemma msi_word c : c_kind c = KMsi -> exists v, cap_read c 0 = Ok (Some v) /\ 0 <= v < 2 ^ 32 /\
  v / 2 ^ 17 mod 2 ^ 3 = c_attr c ms_msi_multiple_message_capable mod 8 /\ v / 2 ^ 23 mod 2 ^ 1 = Z.b2z (zbool (c_attr c ms_msi_64bit_address_capable)).
Proof.
  intros K. unfold cap_read. rewrite K. cbn [is_ext kind_read]. unfold msc_read. change (0 =? 0) with true. cbv iota zeta.
  eexists. split; [reflexivity|]. bools.
  match goal with |- 0 <= ?x < _ /\ _ => set (X := x) end.
  split; [apply range32; unfold X; bits|].
  assert (E1 : Z.land (Z.shiftr X 17) (Z.ones 3) = Z.land (c_attr c ms_msi_multiple_message_capable) (Z.ones 3)) by (change (Z.ones 3) with 7; unfold X; bits).
  assert (E2 : Z.land (Z.shiftr X 23) (Z.ones 1) = b0) by (change (Z.ones 1) with 1; unfold X; bits).
  split; [rewrite (slice_of X 17 3 _ ltac:(lia) ltac:(lia) E1), Z.land_ones by lia; reflexivity|]. exact (slice_of X 23 1 _ ltac:(lia) ltac:(lia) E2).
Qed.
Lemma pcie_word c : c_kind c = KPcie -> exists v, cap_read c 1 = Ok (Some v) /\ 0 <= v < 2 ^ 32 /\ v / 2 ^ 5 mod 2 ^ 1 = Z.b2z (zbool (c_attr c pe_extended_tag_supported)).
Proof.
  intros K. unfold cap_read. rewrite K. cbn [is_ext kind_read]. unfold pec_read. change (1 =? 0) with false. change (1 =? 1) with true. cbv iota zeta.
  eexists. split; [reflexivity|]. bools.
  match goal with |- 0 <= ?x < _ /\ _ => set (X := x) end.
  split; [apply range32; unfold X; bits|]. assert (E : Z.land (Z.shiftr X 5) (Z.ones 1) = b) by (change (Z.ones 1) with 1; unfold X; bits). exact (slice_of X 5 1 _ ltac:(lia) ltac:(lia) E).
Qed.
Lemma msix_word c : c_kind c = KMsix -> exists v, cap_read c 0 = Ok (Some v) /\ 0 <= v < 2 ^ 32 /\
  v / 2 ^ 16 mod 2 ^ 11 = c_attr c mx_msix_table_size mod 2048.
Proof.
  intros K. unfold cap_read. rewrite K. cbn [is_ext kind_read]. unfold mxc_read. change (0 =? 0) with true. cbv iota zeta.
  eexists. split; [reflexivity|]. bools.
  match goal with |- 0 <= ?x < _ /\ _ => set (X := x) end.
  split; [apply range32; unfold X; bits|].
  assert (E1 : Z.land (Z.shiftr X 16) (Z.ones 11) = Z.land (c_attr c mx_msix_table_size) (Z.ones 11)) by (change (Z.ones 11) with 2047; unfold X; bits).
  rewrite (slice_of X 16 11 _ ltac:(lia) ltac:(lia) E1), Z.land_ones by lia. reflexivity.
Qed.
Lemma bir_off b o : let X := Z.lor (Z.land b 7) (Z.land o 0xfffffff8) in
  0 <= X < 2 ^ 32 /\ X mod 2 ^ 3 = b mod 8 /\ X / 2 ^ 3 = o / 8 mod 2 ^ 29.
Proof.
  intros X. assert (R : 0 <= X < 2 ^ 32) by (apply range32; unfold X; bits). split; [exact R|].
  assert (E1 : Z.land X (Z.ones 3) = Z.land b (Z.ones 3)) by (change (Z.ones 3) with 7; unfold X; bits).
  assert (E2 : Z.shiftr X 3 = Z.land (Z.shiftr o 3) (Z.ones 29)) by (change (Z.ones 29) with 0x1fffffff; unfold X; bits).
  rewrite !Z.land_ones in E1 by lia. split; [exact E1|]. rewrite Z.land_ones, !Z.shiftr_div_pow2 in E2 by lia. exact E2.
Qed.
Lemma half_word w : 0 <= w < 2 ^ 32 -> from_le [w / 65536 mod 256; w / 16777216 mod 256] = w / 65536.
Proof. intros H. change (2 ^ 32) with 4294967296 in H. cbn [from_le]. lia. Qed.
Lemma shift_word w k m : 0 <= k -> 0 <= m -> w / 65536 / 2 ^ k mod 2 ^ m = w / 2 ^ (16 + k) mod 2 ^ m.
Proof. intros. rewrite Z.div_div by lia. rewrite Z.pow_add_r by lia. reflexivity. Qed.

Lemma cap_dword {T} (cr : Z -> Z -> T -> res (T * list Z)) p k a (f : T) o : cap_offset k p = Ok o -> cap_read_dword cr p k a f = cfg_read_dword cr (a + o) f.
Proof. intros L. unfold cap_read_dword, capability_read, cfg_read_dword. rewrite L. reflexivity. Qed.

Section Host.
Context (v : vendor) (id : pcie_id) (pf mps tag : Z) (c : pf_cfg) (ops : list vop) (tg : Z -> Z) (crs : option bool) (dev : pcie_id).
Let f := vrun ops (vendor_fn v id pf mps tag c).
Local Notation cr := (config_read (cfg_deliver ep_read ep_write tg) crs dev).
Local Notation found := (mkFound (expected v c) []).
Hypothesis PK : ptr_kept ops.
Hypothesis CK : caps_kept ops.
Hypothesis A : at_id dev f.
Lemma f_shaped : shaped v c f.
Proof. apply shaped_run; [apply vendor_shaped|exact PK]. Qed.
Lemma f_kind i : In i (legacy v c) -> c_kind (f_heap f i) = c_kind (vendor_heap i) /\ c_kind (f_heap (vendor_fn v id pf mps tag c) i) = c_kind (vendor_heap i).
Proof.
  intros H. assert (H' : In i (legacy v c ++ [i_aer; i_pxc])) by (apply in_or_app; left; exact H).
  split; [exact (proj1 (proj2 (proj2 (sh_each _ _ _ f_shaped i H'))))|].
  exact (proj1 (proj2 (proj2 (sh_each _ _ _ (vendor_shaped v id pf mps tag c) i H')))).
Qed.
Lemma f_attr_ro i a : In i (legacy v c) -> In a (ro (c_kind (vendor_heap i))) -> c_attr (f_heap f i) a = c_attr (f_heap (vendor_fn v id pf mps tag c) i) a.
Proof. intros H R. apply (vrun_ro ops _ CK). rewrite (proj2 (f_kind i H)). exact R. Qed.
Lemma host_dword k i r w : cap_offset k found = Ok (4 * place v i) -> In i (legacy v c) -> 0 <= r < c_len (vendor_heap i) -> place v i + r < 64 ->
  cap_read (f_heap f i) r = Ok (Some w) -> 0 <= w < 2 ^ 32 -> cap_read_dword cr found k (4 * r) f = Ok (with_id dev f, w).
Proof.
  intros L Hi Hr B E V. rewrite (cap_dword _ _ _ _ _ _ L). replace (4 * r + 4 * place v i) with (4 * (place v i + r)) by lia.
  exact (vendor_dword v c f f_shaped tg crs dev A i r w Hi Hr B E V).
Qed.
Lemma host_msi n : pf_msi c = Some n -> exists w, cap_read_word cr found (CapId 0x05) 2 f = Ok (with_id dev f, w) /\
  w / 2 ^ 1 mod 2 ^ 3 = bit_length (n - msi_less v pf) mod 8 /\ w / 2 ^ 7 mod 2 ^ 1 = 1.
Proof.
  intros E. destruct (msi_lookup v c n E) as (Hi & L). destruct (f_kind _ Hi) as (K & _).
  destruct (msi_word _ K) as (x & X1 & X2 & X3 & X4).
  exists (x / 65536). unfold cap_read_word, capability_read. rewrite L. cbn [bind].
  replace (2 + 4 * place v i_msi) with (4 * (place v i_msi + 0) + 2) by lia.
  rewrite (vendor_half v c f f_shaped tg crs dev A i_msi 0 x Hi ltac:(cbn; lia) ltac:(destruct v; cbn; lia) X1 X2). cbn [bind].
  rewrite (half_word x X2). split; [reflexivity|]. rewrite !shift_word by lia. split; [etransitivity; [exact X3|]|etransitivity; [exact X4|]].
  - rewrite (f_attr_ro i_msi _ Hi) by (cbn; tauto). clear -E. destruct c as [m y]. cbn [pf_msi] in E. subst m. destruct v, y; reflexivity.
  - rewrite (f_attr_ro i_msi _ Hi) by (cbn; tauto). clear -E. destruct c as [m y]. cbn [pf_msi] in E. subst m. destruct v, y; reflexivity.
Qed.
Lemma host_msix x : pf_msix c = Some x -> (exists w, cap_read_word cr found (CapId 0x11) 2 f = Ok (with_id dev f, w) /\ w mod 2 ^ 11 = mx_size x mod 2048) /\
  (exists w, cap_read_dword cr found (CapId 0x11) 4 f = Ok (with_id dev f, w) /\ w mod 2 ^ 3 = mx_bir x mod 8 /\ w / 2 ^ 3 = mx_offset x / 8 mod 2 ^ 29) /\
  (exists w, cap_read_dword cr found (CapId 0x11) 8 f = Ok (with_id dev f, w) /\ w mod 2 ^ 3 = mx_pba_bir x mod 8 /\ w / 2 ^ 3 = mx_pba_offset x / 8 mod 2 ^ 29).
Proof.
  intros E. destruct (msix_lookup v c x E) as (Hi & L). destruct (f_kind _ Hi) as (K & _).
  assert (AT : forall a, In a (ro KMsix) -> c_attr (f_heap f i_msix) a =
    fold_left (fun s '(a, x) => aset a x s) [(mx_msix_table_size, mx_size x); (mx_msix_table_bar_indicator_register, mx_bir x);
               (mx_msix_table_offset, mx_offset x); (mx_msix_pba_bar_indicator_register, mx_pba_bir x); (mx_msix_pba_offset, mx_pba_offset x)] mxc_init a).
  { intros a Ha. rewrite (f_attr_ro i_msix a Hi Ha). clear -E. destruct c as [m y]. cbn [pf_msix] in E. subst y. destruct v, m; reflexivity. }
  split; [|split].
  - unfold cap_read_word, capability_read. rewrite L. cbn [bind]. destruct (msix_word _ K) as (w & X1 & X2 & X3). exists (w / 65536).
    replace (2 + 4 * place v i_msix) with (4 * (place v i_msix + 0) + 2) by lia.
    rewrite (vendor_half v c f f_shaped tg crs dev A i_msix 0 w Hi ltac:(cbn; lia) ltac:(destruct v; cbn; lia) X1 X2). cbn [bind].
    rewrite (half_word w X2). split; [reflexivity|]. change (2 ^ 16) with 65536 in X3. rewrite X3, AT by (cbn; tauto). reflexivity.
  - destruct (bir_off (c_attr (f_heap f i_msix) mx_msix_table_bar_indicator_register) (c_attr (f_heap f i_msix) mx_msix_table_offset)) as (B1 & B2 & B3).
    eexists. split; [apply (host_dword _ i_msix 1 _ L Hi); [cbn; lia|destruct v; cbn; lia| |exact B1]|].
    + unfold cap_read. rewrite K. reflexivity.
    + rewrite B2, B3. rewrite !AT by (cbn; tauto). split; reflexivity.
  - destruct (bir_off (c_attr (f_heap f i_msix) mx_msix_pba_bar_indicator_register) (c_attr (f_heap f i_msix) mx_msix_pba_offset)) as (B1 & B2 & B3).
    eexists. split; [apply (host_dword _ i_msix 2 _ L Hi); [cbn; lia|destruct v; cbn; lia| |exact B1]|].
    + unfold cap_read. rewrite K. reflexivity.
    + rewrite B2, B3. rewrite !AT by (cbn; tauto). split; reflexivity.
Qed.
Lemma host_tags : exists w, cap_read_dword cr found (CapId 0x10) 4 f = Ok (with_id dev f, w) /\ w / 2 ^ 5 mod 2 ^ 1 = Z.b2z (zbool tag).
Proof.
  destruct (pcie_lookup v c) as (Hi & L). destruct (f_kind _ Hi) as (K & _). destruct (pcie_word _ K) as (w & X1 & X2 & X3). exists w. assert (L' : cap_offset (CapId 0x10) found = Ok (4 * place v i_pcie)) by (unfold cap_offset; rewrite L; destruct v; reflexivity).
  split; [exact (host_dword _ i_pcie 1 w L' Hi ltac:(cbn; lia) ltac:(destruct v; cbn; lia) X1 X2)|]. rewrite X3. rewrite (f_attr_ro i_pcie _ Hi) by (cbn; tauto). clear. destruct c as [m y]. destruct v, m, y; reflexivity.
Qed.
Lemma host_pcie : setup_pcie cr found f = Ok (with_id dev f, Some (0, bit_length (mps / 128 - 1) mod 8)).
Proof.
  destruct (pcie_lookup v c) as (Hi & L). destruct (f_kind _ Hi) as (K & _). pose proof f_shaped as SH.
  assert (Hi' : In i_pcie (legacy v c ++ [i_aer; i_pxc])) by (apply in_or_app; left; exact Hi).
  destruct (sh_each _ _ _ SH i_pcie Hi') as (Q1 & Q2 & _).
  rewrite (setup_exp ep_read ep_write _ tg crs dev f found i_pcie ep_kind A (shaped_disjoint _ _ _ SH)).
  - rewrite !(f_attr_ro i_pcie _ Hi) by (cbn; tauto). do 3 f_equal. clear. destruct c as [m y]. destruct v, m, y; reflexivity.
  - rewrite (sh_caps _ _ _ SH). exact Hi'.
  - rewrite Q1. destruct v; cbn; lia.
  - exact K.
  - rewrite Q2. cbn. lia.
  - rewrite Q1. exact L.
Qed.
End Host.
Lemma least_power n k : 1 <= n <= 32 -> k = bit_length (n - 1) mod 8 -> n <= 2 ^ k /\ forall j, 0 <= j -> n <= 2 ^ j -> 2 ^ k <= 2 ^ j.
Proof.
  intros H ->. rewrite bit_length_up by lia. pose proof (Z.log2_up_nonneg n) as N.
  assert (B : Z.log2_up n <= 5) by (change 5 with (Z.log2_up 32); apply Z.log2_up_le_mono; lia). rewrite Z.mod_small by lia. split.
  - destruct (Z.eq_dec n 1) as [->|]; [cbn; lia|]. apply Z.log2_up_spec. lia.
  - intros j J L. apply Z.pow_le_mono_r; [lia|]. rewrite <- (Z.log2_up_pow2 j J). apply Z.log2_up_le_mono. exact L.
Qed.
