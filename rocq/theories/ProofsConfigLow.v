(** The first 16 configuration registers of the three kinds of function (C23). *)
From Verif Require Import Base BaseProofs Bits ModelUtils SpecUtils ProofsUtils ModelAttrs ModelCaps ModelCapList ModelConfig
  SpecRegs SpecCaps SpecConfig ProofsRegs ProofsCaps ProofsCapsLayout ProofsConfig.

Definition low_follow (read : fnc -> Z -> res (option Z)) (write : Z -> Z -> Z -> fnc -> fnc)
  (rw w1c : attrs -> Z -> Z) (exc : Z -> Z) : Prop :=
  forall f reg data be r v, 0 <= be < 16 -> r < 16 -> read f r = Ok (Some v) ->
  exists v', read (write reg data be f) r = Ok (Some v') /\
    if r =? reg then forall i, 0 <= i -> Z.testbit (exc r) i = false ->
      Z.testbit v' i = upd_bit (rw (f_attr f) r) (w1c (f_attr f) r) be data v i
    else v' = v.

Ltac eqs x := repeat (let N := fresh "N" in lazymatch goal with
    | |- context [if x =? ?k then _ else _] => destruct (Z.eqb_spec x k) as [N|N]; [subst x|]
    end).
Ltac fin := apply upd_intro;
  [ split; [vm_compute; discriminate|reflexivity] | split; [vm_compute; discriminate|reflexivity] | reflexivity | unfold upd_z];
  bitsimp; rewrite ?bmu_hi by lia; rewrite ?bmu_em8 by bits; rewrite ?bmu_em4 by lia; unfold em8, em4; bits.
Ltac leaf reg := let H := fresh "H" in intros H; apply OkSome_inj in H; subst; (eexists; split; [reflexivity|]);
  try match goal with |- context [?k =? reg] => destruct (Z.eqb_spec k reg); [subst reg; try (exfalso; congruence)|] end;
  repeat match goal with H : _ <> _ |- _ => clear H end;
  cbn [Z.eqb Pos.eqb tab app common_rw common_w1c]; look_fn; rewrite ?if_same;
  lazymatch goal with
  | |- ?x = ?x => reflexivity
  | |- forall i : Z, _ => let i := fresh "i" in let Hi := fresh "Hi" in let X := fresh "X" in intros i Hi X;
    lazymatch goal with
    | |- _ = upd_bit 0 0 _ _ _ _ => rewrite upd_none; reflexivity
    | |- Z.testbit (Z.land (byte_mask_update _ _ _ _) 0xffffffff) _ = _ => apply bmu_follow32; assumption
    | |- Z.testbit (byte_mask_update _ _ _ _) _ = _ => apply bmu_follow; assumption
    | |- Z.testbit (Z.lor (Z.b2z (zbool (if _ then Z.b2z _ else _))) (Z.land (Z.land (byte_mask_update _ _ _ _) _) _)) _ = _ =>
      apply rom_follow; assumption
    | |- _ => revert i Hi X; fin
    end
  | |- _ => rewrite ?bmu_hi by lia; rewrite ?bmu_em8 by bits; unfold em8, em4; bits
  end.
Ltac unw := let H := fresh "H" in intros H; apply OkSome_inj in H; subst; (eexists; split; [reflexivity|]);
  cbn [tab app common_rw common_w1c]; repeat rewrite (proj2 (Z.eqb_neq _ _)) by assumption; intros; rewrite upd_none; reflexivity.
Ltac low rd wr rw w1c := 
  let f := fresh "f" in let reg := fresh "reg" in let r := fresh "r" in
  intros f reg ? ? r ? ? ?;
  assert (L1 : (0x10 <=? r) && (r <? 0x40) = false) by lia; assert (L2 : (0x40 <=? r) && (r <? 0x400) = false) by lia;
  unfold wr, rw, w1c, fn_write; eqs reg;
  try (destruct ((0x10 <=? reg) && (reg <? 0x40)) eqn:?; [|destruct ((0x40 <=? reg) && (reg <? 0x400)) eqn:?]);
  unfold rd, fn_read; rewrite L1, L2;
  eqs r; lazymatch goal with
    | A : ?x = true, B : ?x = false |- _ => exfalso; rewrite A in B; discriminate B
    | |- context [if _ =? _ then _ else _] => leaf reg
    | |- context [tab _ reg] => unw
    | |- _ => leaf reg
    end.
Lemma fn_low : low_follow fn_read fn_write fn_rw fn_w1c (tab [(3, 0x40000000)]).
Proof. low fn_read fn_write fn_rw fn_w1c. Qed.
Lemma ep_low : low_follow ep_read ep_write ep_rw ep_w1c (tab [(3, 0x40000000)]).
Proof. low ep_read ep_write ep_rw ep_w1c. Qed.
Definition br_write_alt (reg data mask : Z) (f : fnc) : fnc :=
  if reg =? 4 then  (* 201 *)
    with_attr (fun s =>
      let s := aset (fn_bar (0)) (byte_mask_update (s (fn_bar (0))) mask data (s (fn_bar_mask (0)))) s in
      s) f
  else
  if reg =? 5 then  (* 204 *)
    with_attr (fun s =>
      let s := aset (fn_bar (1)) (byte_mask_update (s (fn_bar (1))) mask data (s (fn_bar_mask (1)))) s in
      s) f
  else
  if reg =? 6 then  (* 207 *)
    with_attr (fun s =>
      let s := when (bit mask 0) (
        let s := aset fn_pri_bus_num (Z.land data 0xff) s in
        s) s in
      let s := when (bit mask 1) (
        let s := aset fn_sec_bus_num (Z.land (Z.shiftr data 8) 0xff) s in
        s) s in
      let s := when (bit mask 2) (
        let s := aset fn_sub_bus_num (Z.land (Z.shiftr data 16) 0xff) s in
        s) s in
      s) f
  else
  if reg =? 7 then  (* 217 *)
    with_attr (fun s =>
      let s := when (bit mask 0) (
        let s := aset fn_io_base (byte_mask_update (s fn_io_base) 2 (Z.shiftl data 8) 0xf000) s in
        s) s in
      let s := when (bit mask 1) (
        let s := aset fn_io_limit (Z.lor (byte_mask_update (s fn_io_limit) 2 data 0xf000) 0xfff) s in
        s) s in
      let s := when (bit mask 3) (
        let s := aclear fn_sec_master_data_parity_error (bit data 24) s in
        let s := aclear fn_sec_signaled_target_abort (bit data 27) s in
        let s := aclear fn_sec_received_target_abort (bit data 28) s in
        let s := aclear fn_sec_received_master_abort (bit data 29) s in
        let s := aclear fn_sec_received_system_error (bit data 30) s in
        let s := aclear fn_sec_detected_parity_error (bit data 31) s in
        s) s in
      s) f
  else
  if reg =? 8 then  (* 238 *)
    with_attr (fun s =>
      let s := aset fn_mem_base (byte_mask_update (s fn_mem_base) (Z.shiftl (Z.land mask 3) 2) (Z.shiftl data 16) 0xfff00000) s in
      let s := aset fn_mem_limit (Z.lor (byte_mask_update (s fn_mem_limit) (Z.land mask 12) data 0xfff00000) 0xfffff) s in
      s) f
  else
  if reg =? 9 then  (* 243 *)
    with_attr (fun s =>
      let s := aset fn_prefetchable_mem_base (byte_mask_update (s fn_prefetchable_mem_base) (Z.shiftl (Z.land mask 3) 2) (Z.shiftl data 16) 0xfff00000) s in
      let s := aset fn_prefetchable_mem_limit (Z.lor (byte_mask_update (s fn_prefetchable_mem_limit) (Z.land mask 12) data 0xfff00000) 0xfffff) s in
      s) f
  else
  if reg =? 10 then  (* 250 *)
    with_attr (fun s =>
      let s := aset fn_prefetchable_mem_base (byte_mask_update (s fn_prefetchable_mem_base) (Z.shiftl mask 4) (Z.shiftl data 32) (-1)) s in
      s) f
  else
  if reg =? 11 then  (* 253 *)
    with_attr (fun s =>
      let s := aset fn_prefetchable_mem_limit (byte_mask_update (s fn_prefetchable_mem_limit) (Z.shiftl mask 4) (Z.shiftl data 32) (-1)) s in
      s) f
  else
  if reg =? 12 then  (* 256 *)
    with_attr (fun s =>
      let s := aset fn_io_base (byte_mask_update (s fn_io_base) (Z.shiftl (Z.land mask 3) 2) (Z.shiftl data 16) (-1)) s in
      let s := aset fn_io_limit (byte_mask_update (s fn_io_limit) (Z.land mask 12) data (-1)) s in
      s) f
  else
  if reg =? 14 then  (* 261 *)
    with_attr (fun s =>
      let s := aset fn_expansion_rom_addr (Z.land (byte_mask_update (s fn_expansion_rom_addr) mask data (s fn_expansion_rom_addr_mask)) 0xfffff800) s in
      let s := when (bit mask 0) (
        let s := aset fn_expansion_rom_enable (Z.b2z (bit data 0)) s in
        s) s in
      s) f
  else
  if reg =? 15 then  (* 267 *)
    with_attr (fun s =>
      let s := when (bit mask 0) (
        let s := aset fn_interrupt_line (Z.land data 0xff) s in
        s) s in
      let s := when (bit mask 2) (
        let s := aset fn_bridge_parity_error_response_enable (Z.b2z (bit data 16)) s in
        let s := aset fn_bridge_serr_enable (Z.b2z (bit data 17)) s in
        let s := aset fn_secondary_bus_reset (Z.b2z (bit data 22)) s in
        s) s in
      s) f
  else
    fn_write reg data mask f.
Lemma br_write_eq reg data mask f : br_write reg data mask f = br_write_alt reg data mask f.
Proof.
  unfold br_write, br_write_alt. destruct (Z.eqb_spec reg 4); [|reflexivity]. subst reg. reflexivity.
Qed.
Lemma br_low' : low_follow br_read br_write_alt br_rw br_w1c (tab [(3, 0x40000000)]).
Proof. low br_read br_write_alt br_rw br_w1c. Qed.
Lemma br_low : low_follow br_read br_write br_rw br_w1c (tab [(3, 0x40000000)]).
Proof.
  intros f reg data be r v Hbe Hr H. rewrite br_write_eq. exact (br_low' f reg data be r v Hbe Hr H).
Qed.
