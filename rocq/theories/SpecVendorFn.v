(** Where the capabilities of the vendor functions should be found, and what may happen to a function in use. *)
From Verif Require Import Base ModelUtils ModelTlp ModelAttrs ModelCaps ModelCapList ModelConfig ModelFunction ModelVendorFn.

(** Capability identifiers (PM 1, MSI 5, PCI Express 0x10, MSI-X 0x11) and byte addresses, as the constructors ask for them. *)
Definition documented (v : vendor) : list (Z * Z) :=
  match v with
  | VUs => [(0x01, 0x80); (0x05, 0x90); (0x11, 0xb0); (0x10, 0xc0)]
  | VUsp => [(0x01, 0x40); (0x05, 0x48); (0x11, 0x60); (0x10, 0x70)]
  | VS10 => [(0x01, 0x40); (0x05, 0x50); (0x10, 0x70); (0x11, 0xb0)]
  | VPtile => [(0x01, 0x40); (0x05, 0x50); (0x11, 0x70); (0x10, 0xb0)]
  end.
Definition present (c : pf_cfg) (e : Z * Z) : bool :=
  if fst e =? 0x05 then match pf_msi c with Some _ => true | None => false end
  else if fst e =? 0x11 then match pf_msix c with Some _ => true | None => false end
  else true.
Definition expected (v : vendor) (c : pf_cfg) : list (Z * Z) := filter (present c) (documented v).
(** The extended capabilities: AER (1) at 0x100, secondary PCI Express (0x19). *)
Definition documented_ext (v : vendor) : list (Z * Z) :=
  [(0x0001, 0x100); (0x0019, match v with VUs => 0x300 | VUsp => 0x1c0 | VS10 | VPtile => 0x188 end)].

(** A function in use: configuration writes by the host, assignments to attributes of the function and of its capabilities by the model
    or the user, and changes of its ID. *)
Inductive vop := VWrite (reg data mask : Z) | VCap (i : nat) (a : attr) (x : Z) | VFn (a : attr) (x : Z) | VId (id : pcie_id).
Definition vstep (f : fnc) (op : vop) : fnc :=
  match op with
  | VWrite reg data mask => ep_write reg data mask f
  | VCap i a x => cap_assign i [(a, x)] f
  | VFn a x => with_attr (aset a x) f
  | VId id => with_id id f
  end.
Definition vrun (ops : list vop) (f : fnc) : fnc := fold_left vstep ops f.
(** The pointer to the first capability is left alone. *)
Definition ptr_kept (ops : list vop) : Prop := forall x, ~ In (VFn fn_capabilities_ptr x) ops.
(** Only the host changes the capabilities. *)
Definition caps_kept (ops : list vop) : Prop := forall i a x, ~ In (VCap i a x) ops.
