(** C64: enumeration by configuration requests in a tree of functions. *)
From Verif Require Import Base SpecTlp ModelUtils ModelTlp ModelAttrs ModelCaps ModelCapList ModelConfig ModelFunction ModelHost ModelPci ModelPciCaps ModelRoute ModelEnum ModelDriver ModelTree SpecBar SpecCapList SpecCapFn SpecPciCaps SpecRoute SpecHost SpecTree
  ModelTreeUp ModelTreeCfg SpecTreeCfg ModelScan SpecScan ModelEnumCfg SpecEnumCfg ProofsCapWalk ProofsEnumFn ProofsEnumTree ProofsEnumScan PropertiesCapList.

(** The whole enumeration (core/pci.py:63-230 and 623-720): whenever the registers in the tree [z] are those of the abstract tree [h], the accesses on the tree end as [scan_root] does on [h], with the same
    functions found at the same places (their BARs of the same kinds and sizes) and the same bus numbers, in the devices and in the registers; and if one raises an exception, so does the other.  Hence C32 to
    C34 hold of it.  [fuel] bounds the walk through the capability lists; any number above their lengths will do.
    Tags and CRS software visibility may be different for each device. *)
Theorem C64_enumerates_partial : forall fuel m tg crs h z, system fuel h z ->
  match scan_root m h with
  | Ok (h', b) => exists z' b', cfg_scan_root (fun dev => config_read (cfg_ask (tg dev)) (crs dev) dev) (fun dev => config_write (cfg_ask (tg dev)) dev) fuel m z = Ok (z', b') /\ system fuel h' z' /\ same_bus b' b
  | Err e => cfg_scan_root (fun dev => config_read (cfg_ask (tg dev)) (crs dev) dev) (fun dev => config_write (cfg_ask (tg dev)) dev) fuel m z = Err e
  end.
Proof.
  intros fuel m tg crs h z Sy. pose proof (enum_refines fuel m tg crs h z Sy) as R. destruct (scan_root m h) as [[h' b]|e]; [|exact R]. destruct R as (z' & b' & E & S & B & _). exists z', b'. auto.
Qed.
(** The setup of one function: it alone is told by its registers what [pfn_of] has of it. *)
Theorem C64_setup_partial : forall fuel m tg crs b d f h z x, 0 <= b <= 255 -> mkId b d f <> mkId 0 0 0 -> system fuel h z -> hw_get b d f h = Some x ->
  match setup m None b d f x h with
  | Ok (h', p) => exists z' q, cfg_setup (fun dev => config_read (cfg_ask (tg dev)) (crs dev) dev) (fun dev => config_write (cfg_ask (tg dev)) dev) fuel m None (mkId b d f) z = Ok (z', q) /\
      system fuel h' z' /\ alike (strip q) p /\ (forall g br, leads b d f z' = Some (g, br) -> d_found q = listing g)
  | Err e => cfg_setup (fun dev => config_read (cfg_ask (tg dev)) (crs dev) dev) (fun dev => config_write (cfg_ask (tg dev)) dev) fuel m None (mkId b d f) z = Err e
  end.
Proof.
  intros fuel m tg crs b d f h z x B N Sy G. pose proof (setup_all fuel m tg crs b d f B N None None h z x Sy G I) as S. destruct (setup m None b d f x h) as [[h' p]|e] eqn:Es; [|exact S].
  destruct S as (z' & q & E & S' & _ & (b1 & d1 & f1 & x1 & g1 & br1 & Iq & _ & _ & _ & Le & Li & Al & _)). exists z', q. split; [exact E|]. split; [exact S'|]. split; [exact Al|].
  intros g br Lg. assert (Ei : mkId b1 d1 f1 = mkId b d f).
  { rewrite <- Iq. destruct Al as (A & _). cbn [strip p_id] in A. rewrite A. unfold setup in Es. destruct (configure_mps m None (pfn_of b d f x) h); [|discriminate]. injection Es as _ <-. reflexivity. }
  injection Ei as -> -> ->. congruence.
Qed.

(** ** Example: a root port and behind it an endpoint with a PCI Express and an MSI capability, a 32-bit and a 64-bit BAR; no bus numbers yet *)
Definition en_heap (ty : Z) : heap := fun i => match i with O => c_set_attr (aset pe_pcie_device_type ty pec_init) pcie_cap_new | S O => msi_cap_new | _ => pm_cap_new end.
Definition en_f0 (d ty : Z) (l : list (attr * Z)) (a : attrs) : fnc := mkFn (fold_right (fun '(a, v) s => aset a v s) a l) (en_heap ty) [] [] (mkId 0 d 0).
Definition en_rp0 : fnc := en_f0 1 4 [] bridge_init.
Definition en_ep0 : fnc := en_f0 0 0 [(fn_bar_mask 0, 2 ^ 32 - 2 ^ 16); (fn_bar 1, 12); (fn_bar_mask 1, 2 ^ 32 - 2 ^ 20); (fn_bar_mask 2, 2 ^ 32 - 1)] endpoint_init.
Definition en_ops : list fop := [FReg 0 None; FReg 1 None].
Definition en_rp : fnc := get (frun br_write en_ops en_rp0).
Definition en_ep : fnc := get (frun ep_write en_ops en_ep0).
Definition en_net : net := Net (en_f0 0 4 [(fn_sub_bus_num, 255)] bridge_init) true [Net en_rp true [Net en_ep false []]].
Definition en_x (d ty e : Z) (bs : list (Z * Z)) : hfn := mkHf d 0 0xff1234 ty false (Some (e, 5)) 0 0 0 0 bs (0, 0).
Definition en_hw : hw := Hw (mkHf 0 0 0xff1234 1 false None 0 0 0 255 [] (0, 0)) [Hw (en_x 1 1 4 [(0, 0); (0, 0)]) [Hw (en_x 0 0 0 [(0, 2 ^ 16); (12, 2 ^ 20); (0, 0); (0, 0); (0, 0); (0, 0)]) []]].
Definition en_scan : res (net * pbus) := cfg_scan_root (fun dev => config_read (cfg_ask (fun _ => 5)) None dev) (fun dev => config_write (cfg_ask (fun _ => 5)) dev) 5 1 en_net.
Lemma en_fresh d ty l a : f_attr (en_f0 d ty l a) fn_capabilities_ptr = 0 -> fresh (en_f0 d ty l a).
Proof. intros P. split; [reflexivity|]. split; [reflexivity|]. split; [exact P|]. intros [|[|i]]; cbn; repeat split; lia. Qed.
Lemma en_orderly (br : bool) f0 f : f_heap f0 = en_heap (c_attr (f_heap f0 0%nat) pe_pcie_device_type) -> frun (cfg_wr br) en_ops f0 = Ok f -> fits_alongb false (cfg_wr br) en_ops f0 = true -> fits_alongb true (cfg_wr br) en_ops f0 = true ->
  f_caps f = [0; 1]%nat -> f_ecaps f = [] -> off (f_heap f 0%nat) = 16 -> off (f_heap f 1%nat) = 31 -> orderly (cfg_wr br) f0 en_ops f.
Proof.
  intros Eh E B1 B2 C X O1 O2. constructor.
  - intros i. rewrite Eh. apply builtin_headed. destruct i as [|[|i]]; exact Logic.I.
  - intros i. rewrite Eh. destruct i as [|[|i]]; cbn; lia.
  - intros []; reflexivity.
  - intros []; apply fits_alongb_ok; assumption.
  - rewrite X. discriminate.
  - rewrite C. intros i [<-|[<-|[]]]; rewrite ?O1, ?O2; lia.
  - rewrite X. intros i [].
Qed.
Lemma en_typed d ty l a : typed (en_f0 d ty l a) en_ops.
Proof. intros i o X. cbn in X. repeat (destruct X as [X|X]; [injection X as <- _; reflexivity|]). destruct X. Qed.
Example C64_ex : system 5 en_hw en_net /\
  match scan_root 1 en_hw with
  | Ok (h, b) => b = PBus 0 0 1 [(pfn_of 0 1 0 (en_x 1 1 4 [(0, 0); (0, 0)]), Some (PBus 1 0 1 [(pfn_of 1 0 0 (en_x 0 0 0 [(0, 2 ^ 16); (12, 2 ^ 20); (0, 0); (0, 0); (0, 0); (0, 0)]), None)]))]
  | Err _ => False
  end.
Proof.
  split; [|vm_compute; reflexivity]. split; [|split; [reflexivity|]].
  - eexists. eexists. split; [reflexivity|]. split; [vm_compute; reflexivity|]. intros g I E. cbn [below flat_map net_fns en_net app] in I. cbn [In] in I.
    repeat (destruct I as [I|I]; [first [discriminate I | injection I as <-; vm_compute; discriminate | injection I as <-; discriminate E]|]). destruct I.
  - eexists. eexists. split; [reflexivity|]. cbn [hw_below en_hw].
    constructor; [|constructor]. constructor; [|constructor; [|constructor]; constructor; [|constructor]].
    + constructor.
      * split; [reflexivity|]. repeat split; try (vm_compute; congruence); discriminate.
      * reflexivity.
      * exists [None; None]. repeat split; vm_compute; reflexivity.
      * exists 32, 0. repeat split; try (vm_compute; congruence).
      * exists en_rp0, en_ops, en_rp. split; [apply en_fresh; reflexivity|]. split; [apply en_typed|]. assert (R : frun (cfg_wr true) en_ops en_rp0 = Ok en_rp) by (apply get_ok; vm_compute; reflexivity).
        split; [exact R|]. split; [apply en_orderly; try exact R; try (vm_compute; reflexivity); reflexivity|]. split; [reflexivity|]. split; vm_compute; lia.
      * exists 0%nat. eexists. eexists. eexists. split; [vm_compute; auto|]. split; [reflexivity|]. split; [vm_compute; discriminate|]. split; [vm_compute; discriminate|]. split; [vm_compute; reflexivity|].
        split; [vm_compute; reflexivity|]. split; [reflexivity|]. split; [vm_compute; reflexivity|]. split; [reflexivity|]. split; [vm_compute; reflexivity|reflexivity].
    + constructor.
      * split; [reflexivity|]. repeat split; try (vm_compute; congruence); discriminate.
      * reflexivity.
      * exists [Some (BMem false false, 16, 0); Some (BMem true true, 20, 0); None; None; None]. repeat split; try (vm_compute; congruence); try (cbn; lia).
      * exists 32, 0. repeat split; try (vm_compute; congruence).
      * exists en_ep0, en_ops, en_ep. split; [apply en_fresh; reflexivity|]. split; [apply en_typed|]. assert (R : frun (cfg_wr false) en_ops en_ep0 = Ok en_ep) by (apply get_ok; vm_compute; reflexivity).
        split; [exact R|]. split; [apply en_orderly; try exact R; try (vm_compute; reflexivity); reflexivity|]. split; [reflexivity|]. split; vm_compute; lia.
      * exists 0%nat. eexists. eexists. eexists. split; [vm_compute; auto|]. split; [reflexivity|]. split; [vm_compute; discriminate|]. split; [vm_compute; discriminate|]. split; [vm_compute; reflexivity|].
        split; [vm_compute; reflexivity|]. split; [reflexivity|]. split; [vm_compute; reflexivity|]. split; [reflexivity|]. split; [vm_compute; reflexivity|reflexivity].
Qed.
(** What the accesses themselves give: both Max_Payload_Size fields are 1 afterwards, the root port has buses 1 to 1 and the endpoint is captured at 1:0.0; the walk found both capabilities. *)
Definition en_cap (b d f : Z) (z : net) : option (pcie_id * Z * Z * Z) :=
  match leads b d f z with Some (g, _) => Some (f_id g, c_attr (f_heap g 0%nat) pe_max_payload_size, f_attr g fn_sec_bus_num, f_attr g fn_sub_bus_num) | None => None end.
Example C64_run_ex : match en_scan with
  | Ok (z, PBus 0 0 1 [(p, Some (PBus 1 0 1 [(q, None)]))]) => en_cap 0 1 0 z = Some (mkId 0 1 0, 1, 1, 1) /\ en_cap 1 0 0 z = Some (mkId 1 0 0, 1, 0, 0) /\ p_exp p = Some (4, 5) /\ p_exp q = Some (0, 5) /\
      p_bars q = [(0, 2 ^ 16); (0xc0000000c, 2 ^ 20); (0, 0); (0, 0); (0, 0); (0, 0)]
  | _ => False
  end.
Proof. vm_compute. repeat split. Qed.

Print Assumptions C64_enumerates_partial.
Print Assumptions C64_setup_partial.
