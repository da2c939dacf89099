(** C62: configuration accesses of the host across a tree that it has set up. *)
From Verif Require Import Base SpecTlp ModelUtils ModelTlp ModelAttrs ModelCapList ModelConfig ModelFunction ModelHost ModelRoute ModelEnum ModelAssign SpecBar SpecRoute
  SpecEnum SpecAssign SpecConfig SpecHost ModelTree SpecTree ModelTreeUp SpecTreeUp ModelFabric ModelTreeCfg SpecTreeCfg ProofsTreeAll ProofsTreeCfg ProofsTreeCfgAll PropertiesTree PropertiesTreeUp PropertiesFabric.

(** A tree [z'] with the numbers that the host has given: as the host has set it up, or as any accesses have left it since then (see below). *)
(** A read for the number of the function [g] at [q] returns the bytes of its configuration space and changes nothing. *)
Theorem C62_read : forall m h z l h' b n l', brought_up m h z l h' b n l' ->
  forall z' q g br kids tg crs addr len, same_numbers (set_up h' n l l' z) z' -> q <> [] -> net_at z' q = Some (Net g br kids) ->
  0 <= len -> (forall r, addr / 4 <= r <= (addr + len - 1) / 4 -> readable (cfg_rd br) g r) ->
  exists d, config_read (cfg_request tg) crs (f_id g) addr len z' = Ok (z', d) /\ zlen d = len /\
    forall k, 0 <= k < len -> cfg_byte (cfg_rd br) g (addr + k) = Some (nth (Z.to_nat k) d 0).
Proof. intros m h z l h' b n l' U. exact (tree_read m h _ l h' b n l' (up_arranged _ _ _ _ _ _ _ _ U)). Qed.
(** A write changes exactly the addressed bytes of this function as far as they are writable, and no other function; the numbers stay as they are.  Missing: the bits for which the registers themselves are wrong (C23),
    and the bus numbers of bridges. *)
Theorem C62_write_partial : forall m h z l h' b n l', brought_up m h z l h' b n l' ->
  forall z' q g br kids tg addr d, same_numbers (set_up h' n l l' z) z' -> q <> [] -> net_at z' q = Some (Net g br kids) -> bytes_ok d -> spared br addr (zlen d) ->
  exists z'' g', config_write (cfg_request tg) (f_id g) addr d z' = Ok z'' /\ same_numbers (set_up h' n l l' z) z'' /\ (exists kids', net_at z'' q = Some (Net g' br kids')) /\
    (forall p, p <> q -> option_map (fun w => (net_fn w, net_br w)) (net_at z'' p) = option_map (fun w => (net_fn w, net_br w)) (net_at z' p)) /\
    (forall r v rw w1c exc, cfg_rd br g r = Ok (Some v) -> masks_of br g r = Some (rw, w1c, exc) ->
      exists v', cfg_rd br g' r = Ok (Some v') /\ masks_of br g' r = Some (rw, w1c, exc) /\
        (forall i, 0 <= i -> Z.testbit exc i = false -> Z.testbit v' i = host_bit rw w1c addr d r v i) /\
        (d = [] \/ 4 * r + 4 <= addr \/ addr + zlen d <= 4 * r -> v' = v)).
Proof. intros m h z l h' b n l' U. exact (tree_write m h _ l h' b n l' (up_arranged _ _ _ _ _ _ _ _ U)). Qed.
(** With a number that no function has, reads return all ones and writes change nothing.  (The host bridge itself, 0:0.0, is not below itself.) *)
Theorem C62_absent : forall m h z l h' b n l', brought_up m h z l h' b n l' ->
  forall tg crs z' dev addr len d, same_numbers (set_up h' n l l' z) z' -> 0 <= bus dev < 256 -> ~ In dev (map number (below_functions h')) -> 0 <= len ->
  config_read (cfg_request tg) crs dev addr len z' = Ok (z', repeat 0xff (Z.to_nat len)) /\ config_write (cfg_request tg) dev addr d z' = Ok z'.
Proof. intros m h z l h' b n l' U. exact (tree_absent m h _ l h' b n l' (up_arranged _ _ _ _ _ _ _ _ U)). Qed.
(** The functions that are there are those on the paths. *)
Theorem C62_present : forall m h z l h' b n l', brought_up m h z l h' b n l' -> same_numbers (set_up h' n l l' z) (set_up h' n l l' z) /\
  forall z' dev, same_numbers (set_up h' n l l' z) z' -> (In dev (map number (below_functions h')) <-> exists q w, q <> [] /\ net_at z' q = Some w /\ f_id (net_fn w) = dev).
Proof. intros m h z l h' b n l' U. exact (tree_present m h _ l h' b n l' (up_arranged _ _ _ _ _ _ _ _ U)). Qed.

(** ** Example: the tree of C60, from the root port with bus 1 to the endpoint with bus 2 *)
Definition reg_of (r : res (net * list Z)) : option (list Z) := match r with Ok (_, d) => Some d | Err _ => None end.
Definition cfg_then (z : net) (dev : pcie_id) (addr : Z) (d : list Z) (rdev : pcie_id) (raddr n : Z) : option (list Z) :=
  match config_write (cfg_request (fun _ => 7)) dev addr d z with Ok z => reg_of (config_read (cfg_request (fun _ => 9)) None rdev raddr n z) | Err _ => None end.
Example C62_ex : exists h' b n l', brought_up 0 up_hw up_net ex_l h' b n l' /\
  let z := set_up h' n ex_l l' up_net in
  (exists g, net_at z [0; 1]%nat = Some (Net g false []) /\ f_id g = mkId 1 0 1 /\ forall r, 1 <= r <= 6 -> readable (cfg_rd false) g r) /\
  ~ In (mkId 1 0 2) (map number (below_functions h')) /\
  (* BARs 0 and 1 of 1:0.1, read from 0x0f on; bus numbers of the root ports *)
  reg_of (config_read (cfg_request (fun _ => 9)) None (mkId 1 0 1) 0x0f 10 z) = Some [0; 0x0c; 0; 0; 0; 0; 0; 0; 0x80; 0] /\
  reg_of (config_read (cfg_request (fun _ => 9)) None (mkId 0 2 0) 0x18 3 z) = Some [0; 2; 2] /\
  reg_of (config_read (cfg_request (fun _ => 9)) None (mkId 1 0 2) 0 4 z) = Some [255; 255; 255; 255] /\ reg_of (config_read (cfg_request (fun _ => 9)) None (mkId 0 0 0) 0 4 z) = Some [255; 255; 255; 255] /\
  (* a new address for the BAR of 2:0.0: nobody else gets it *)
  cfg_then z (mkId 2 0 0) 0x10 [0xff; 0xff; 0x23; 0xc1] (mkId 2 0 0) 0x0e 8 = Some [0; 0; 0; 0xf0; 0x23; 0xc1; 1; 0x10] /\
  cfg_then z (mkId 2 0 0) 0x10 [0xff; 0xff; 0x23; 0xc1] (mkId 1 0 0) 0x10 4 = Some [0; 0; 0; 0xc0] /\
  (* windows of a root port *)
  cfg_then z (mkId 0 2 0) 0x20 [0x10; 0x20; 0x30; 0x40] (mkId 2 0 0) 0x10 4 = Some [0; 0; 0x10; 0xc0] /\ cfg_then z (mkId 0 2 0) 0x20 [0x10; 0x20; 0x30; 0x40] (mkId 0 2 0) 0x20 4 = Some [0x10; 0x20; 0x30; 0x40].
Proof.
  destruct C60_ex as (h' & b & n & l' & U & _). exists h', b, n, l'. split; [exact U|]. known U. clear U. cbv zeta. split.
  { eexists. split; [vm_compute; reflexivity|]. split; [reflexivity|]. intros r H. assert (C : In r [1; 2; 3; 4; 5; 6]) by (cbn; lia).
    repeat (destruct C as [<-|C]; [eexists; split; [vm_compute; reflexivity|cbn; lia]|]). destruct C. }
  split; [vm_compute; intros I; repeat (destruct I as [I|I]; [discriminate I|]); destruct I|].
  repeat match goal with |- _ /\ _ => split; [vm_compute; reflexivity|] end. vm_compute. reflexivity.
Qed.

Print Assumptions C62_read.
Print Assumptions C62_write_partial.
Print Assumptions C62_absent.
Print Assumptions C62_present.
