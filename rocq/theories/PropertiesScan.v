(** C63: configuration accesses of the host in a tree with any bus numbers, in particular while it is assigning them. *)
From Verif Require Import Base SpecTlp ModelUtils ModelTlp ModelAttrs ModelCapList ModelConfig ModelFunction ModelHost ModelPci ModelPciCaps ModelRoute ModelEnum ModelTree SpecRoute SpecHost SpecTree
  ModelTreeUp ModelTreeCfg SpecTreeCfg ModelScan SpecScan ProofsScan ProofsScanAll ProofsScanHw ProofsScanBus PropertiesTree.

(** ** Where accesses go *)
(** The bus numbers in the bridges lead to a function: the access is exactly one to this function alone (C25), and it alone changes. *)
Theorem C63_goes : forall z b d f g br, at_host z -> 0 <= b <= 255 -> mkId b d f <> mkId 0 0 0 -> leads b d f z = Some (g, br) ->
  forall tg crs addr n dat,
  config_read (cfg_ask tg) crs (mkId b d f) addr n z =
    ('(g', dd) <- config_read (cfg_deliver (cfg_rd br) (cfg_wr br) tg) crs (mkId b d f) addr n g ;; Ok (instead g' b d f z, dd)) /\
  config_write (cfg_ask tg) (mkId b d f) addr dat z =
    (g' <- config_write (cfg_deliver (cfg_rd br) (cfg_wr br) tg) (mkId b d f) addr dat g ;; Ok (instead g' b d f z)).
Proof. intros z b d f g br H B N L tg crs addr n dat. split; [exact (tree_reads b d f tg B N crs addr n z g br H L)|exact (tree_writes b d f tg B N addr dat z g br H L)]. Qed.
(** They lead to none: reads return all ones and writes change nothing. *)
Theorem C63_nobody : forall z b d f, at_host z -> 0 <= b <= 255 -> mkId b d f <> mkId 0 0 0 -> leads b d f z = None ->
  forall tg crs addr n dat, 0 <= n ->
  config_read (cfg_ask tg) crs (mkId b d f) addr n z = Ok (z, repeat 0xff (Z.to_nat n)) /\ config_write (cfg_ask tg) (mkId b d f) addr dat z = Ok z.
Proof. intros z b d f H B N L tg crs addr n dat Hn. exact (tree_nobody b d f tg B N crs addr n dat z H L Hn). Qed.

(** ** ... and where ModelEnum.v has them go *)
(** The same functions answer. *)
Theorem C63_agrees : forall h z b d f, pictured h z ->
  match leads b d f z, hw_get b d f h with Some (g, br), Some x => looks x g br | None, None => True | _, _ => False end.
Proof. exact same_place. Qed.
(** A read, or a write elsewhere than to the bus numbers of a bridge, leaves the picture as it is. *)
Theorem C63_keeps : forall h z b d f, pictured h z -> 0 <= b <= 255 -> mkId b d f <> mkId 0 0 0 ->
  (forall tg crs addr n z' dd, 0 <= n -> config_read (cfg_ask tg) crs (mkId b d f) addr n z = Ok (z', dd) -> pictured h z') /\
  (forall tg addr dat z', (forall x, hw_get b d f h = Some x -> spared (is_bridge x) addr (zlen dat)) -> config_write (cfg_ask tg) (mkId b d f) addr dat z = Ok z' -> pictured h z').
Proof.
  intros h z b d f P B N. split.
  - intros tg crs addr n z' dd. exact (picture_read h z b d f tg P B N crs addr n z' dd).
  - intros tg addr dat z'. exact (picture_write h z b d f tg P B N addr dat z').
Qed.
(** The reads of register 0 and of the header type (core/pci.py:159, 175, 625): what ModelEnum.v takes for them *)
Theorem C63_id : forall h z b d f, pictured h z -> 0 <= b <= 255 -> mkId b d f <> mkId 0 0 0 ->
  forall tg crs, exists z', cfg_read_dword (config_read (cfg_ask tg) crs (mkId b d f)) 0 z = Ok (z', read_id h b d f) /\ pictured h z'.
Proof. intros h z b d f P B N tg crs. exact (picture_id h z b d f tg P B N crs). Qed.
Theorem C63_header : forall h z b d f x, pictured h z -> 0 <= b <= 255 -> mkId b d f <> mkId 0 0 0 -> hw_get b d f h = Some x ->
  forall tg crs, exists z', cfg_read_byte (config_read (cfg_ask tg) crs (mkId b d f)) 0x0e z = Ok (z', h_type x + if h_multi x then 128 else 0) /\ pictured h z'.
Proof. intros h z b d f x P B N G tg crs. exact (picture_header h z b d f tg P B N crs x G). Qed.
(** The write of the bus numbers (core/pci.py:218, 228): ModelEnum.v's [put_buses] for the same function *)
Theorem C63_buses : forall h z b d f, pictured h z -> 0 <= b <= 255 -> mkId b d f <> mkId 0 0 0 ->
  forall tg v, 0 <= v < 2 ^ 32 -> exists z', cfg_write_dword (config_write (cfg_ask tg) (mkId b d f)) 0x18 v z = Ok z' /\
    pictured (hw_map (put_buses (v mod 256) (v / 256 mod 256) (v / 65536 mod 256)) b d f h) z'.
Proof. intros h z b d f P B N tg v V. exact (picture_buses h z b d f tg P B N v V). Qed.

(** ** Example: two root ports; the first has just got bus 1 and all above, the second has no buses yet; behind the first a switch that has no buses yet, behind the second an endpoint with two functions *)
Definition scan_f (d f ty multi sec sub : Z) : fnc :=
  ex_f d f [(fn_vendor_id, 0x5678); (fn_device_id, 0x1234); (fn_header_layout, ty); (fn_multifunction_device, multi); (fn_sec_bus_num, sec); (fn_sub_bus_num, sub)].
Definition scan_x (d f ty : Z) (multi : bool) (sec sub : Z) : hfn := mkHf d f 0x12345678 ty multi None 0 0 sec sub [] (0, 0).
Definition scan_hw : hw :=
  Hw (scan_x 0 0 1 false 0 255)
    [Hw (scan_x 1 0 1 false 1 255) [Hw (scan_x 0 0 1 false 0 0) [Hw (scan_x 3 0 1 false 0 0) []]];
     Hw (scan_x 2 0 1 false 0 0) [Hw (scan_x 0 0 0 true 0 0) []; Hw (scan_x 0 1 0 true 0 0) []]].
Definition scan_net : net :=
  Net (scan_f 0 0 1 0 0 255) true
    [Net (scan_f 1 0 1 0 1 255) true [Net (scan_f 0 0 1 0 0 0) true [Net (scan_f 3 0 1 0 0 0) true []]];
     Net (scan_f 2 0 1 0 0 0) true [Net (scan_f 0 0 0 1 0 0) false []; Net (scan_f 0 1 0 1 0 0) false []]].
Definition got {A} (r : res (net * A)) : option A := match r with Ok (_, a) => Some a | Err _ => None end.
Notation ask_id z b d f := (got (cfg_read_dword (config_read (cfg_ask (fun _ => 5)) None (mkId b d f)) 0 z)).
Definition after (z : net) (b d f v : Z) : net := match cfg_write_dword (config_write (cfg_ask (fun _ => 5)) (mkId b d f)) 0x18 v z with Ok z => z | Err _ => z end.
Example C63_ex : pictured scan_hw scan_net /\
  (* as it is: bus 1 has the switch's upstream port, which is not on bus 2, and nothing is behind the second root port *)
  ask_id scan_net 0 1 0 = Some 0x12345678 /\ ask_id scan_net 1 0 0 = Some 0x12345678 /\ ask_id scan_net 1 3 0 = Some 0xffffffff /\ ask_id scan_net 2 3 0 = Some 0xffffffff /\ ask_id scan_net 0 2 0 = Some 0x12345678 /\
  (* the upstream port gets buses, its downstream port appears; the first root port gets only 1 and 2, the second one 3: the endpoint appears *)
  let z1 := after scan_net 1 0 0 0xff0201 in let z2 := after (after z1 0 1 0 0x020100) 0 2 0 0xff0300 in
  ask_id z1 2 3 0 = Some 0x12345678 /\ ask_id z1 3 0 1 = Some 0xffffffff /\ ask_id z2 2 3 0 = Some 0x12345678 /\ ask_id z2 3 0 1 = Some 0x12345678 /\ ask_id z2 3 0 2 = Some 0xffffffff /\
  got (cfg_read_byte (config_read (cfg_ask (fun _ => 5)) None (mkId 3 0 1)) 0x0e z2) = Some 0x80.
Proof.
  split; [|vm_compute; repeat split].
  split; [|split; [reflexivity|]].
  - eexists. eexists. split; [reflexivity|]. split; [reflexivity|]. intros g I E. cbn [below flat_map net_fns scan_net app] in I. cbn [In] in I.
    repeat (destruct I as [I|I]; [first [discriminate I | injection I as <-; vm_compute; discriminate | injection I as <-; discriminate E]|]). destruct I.
  - eexists. eexists. split; [reflexivity|]. cbn [hw_below scan_hw].
    assert (K : forall d f ty (m : bool) sec sub, ty = 0 \/ ty = 1 -> looks (scan_x d f ty m sec sub) (scan_f d f ty (Z.b2z m) sec sub) (ty =? 1)).
    { intros d f ty m sec sub T. split; [reflexivity|]. split; [reflexivity|]. destruct T as [-> | ->]; destruct m; repeat split; try (vm_compute; congruence); try discriminate. }
    repeat apply Forall2_cons; try apply Forall2_nil; repeat (constructor; [first [exact (K _ _ 0 true _ _ (or_introl eq_refl)) | exact (K _ _ 1 false _ _ (or_intror eq_refl))]|]; repeat apply Forall2_cons; try apply Forall2_nil).
Qed.

Print Assumptions C63_goes.
Print Assumptions C63_nobody.
Print Assumptions C63_agrees.
Print Assumptions C63_keeps.
Print Assumptions C63_id.
Print Assumptions C63_header.
Print Assumptions C63_buses.
