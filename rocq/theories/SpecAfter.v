(** Vocabulary for the tree that enumeration leaves. *)
From Verif Require Import Base SpecTlp ModelUtils ModelTlp ModelAttrs ModelCapList ModelConfig ModelFunction ModelHost ModelPci ModelRoute ModelEnum ModelAssign SpecBar SpecRoute SpecEnum SpecAssign ModelTree SpecTree
  ModelTreeCfg ModelScan SpecScan ModelEnumCfg SpecEnumCfg ModelAssignCfg SpecAssignCfg.

(** [z'] is what [enumerate] has left of the tree [z], which had no numbers and addresses; [tg] and [crs]: the tags and the CRS software visibility of each access.  [h', b, n, l']: what C32 and C33 say of [z]. *)
Definition enumerated_to (fuel : nat) (m : Z) (tg : pcie_id -> Z -> Z) (crs : pcie_id -> option bool) (h : hw) (z : net) (l : lims) (h' : hw) (b : pbus) (n : list adev) (l' : lims) (z' : net) : Prop :=
  system fuel h z /\ brought_up m h z l h' b n l' /\
  exists b' n', cfg_enumerate (fun dev => config_read (cfg_ask (tg dev)) (crs dev) dev) (fun dev => config_write (cfg_ask (tg dev)) dev) fuel m l z = Ok (z', b', n', l').
(** The space that the BARs, ROMs and bridges below a host need (SpecAssign.v); bus numbers play no part in it. *)
Definition space (k : kind) (h : hw) : Z := need k (PBus 0 0 0 (map (view 0) (hw_below h))).
