(** Specification of DLLPs: what each type carries and where, and transmission errors. *)
From Verif Require Import Base ModelDllp SpecTlp.

(** PCI Express Base Specification 3.4: encodings and layouts. *)
Inductive dkind := DAckNak | DPlain | DFeature | DFc.
Definition dkind_of (ty : Z) : option dkind :=
  match ty with
  | 0x00 | 0x10 => Some DAckNak
  | 0x31 | 0x20 | 0x21 | 0x23 | 0x24 => Some DPlain
  | 0x02 => Some DFeature
  | 0x40 | 0x50 | 0x60 | 0xc0 | 0xd0 | 0xe0 | 0x80 | 0x90 | 0xa0 => Some DFc
  | _ => None
  end.

(** Fields in range; fields that the type does not carry at their defaults. *)
Record dfits (k : dkind) (d : dllp) : Prop := {
  df_kind : dkind_of (d_type d) = Some k;
  df_seq : match k with DAckNak => 0 <= d_seq d < 4096 | _ => d_seq d = 0 end;
  df_fc : match k with
          | DFc => 0 <= d_vc d < 8 /\ 0 <= d_hdr_scale d < 4 /\ 0 <= d_hdr_fc d < 256
                   /\ 0 <= d_data_scale d < 4 /\ 0 <= d_data_fc d < 4096
          | _ => d_vc d = 0 /\ d_hdr_scale d = 0 /\ d_hdr_fc d = 0 /\ d_data_scale d = 0 /\ d_data_fc d = 0
          end;
  df_feat : match k with
            | DFeature => 0 <= d_feature_support d < 2 ^ 23
            | _ => d_feature_support d = 0 /\ d_feature_ack d = false
            end }.

(** The four bytes as one big endian number. *)
Definition dlayout (k : dkind) (d : dllp) (v : Z) : Prop :=
  match k with
  | DAckNak => v = d_type d * 2 ^ 24 + d_seq d
  | DPlain => v = d_type d * 2 ^ 24
  | DFeature => v = d_type d * 2 ^ 24 + flag (d_feature_ack d) * 2 ^ 23 + d_feature_support d
  | DFc => v = (d_type d + d_vc d) * 2 ^ 24 + d_hdr_scale d * 2 ^ 22 + d_hdr_fc d * 2 ^ 14
               + d_data_scale d * 2 ^ 12 + d_data_fc d
  end.

(** Reserved bits of an accepted DLLP. *)
Definition dreserved (k : dkind) : Z :=
  match k with DAckNak => 0x00fff000 | DPlain => 0x00ffffff | DFeature | DFc => 0 end.

(** Transmission errors.  The bits of a packet are numbered in the order in which they are sent: bit
    [i] is bit [i mod 8] of byte [i / 8].  [corrupt e p] inverts the bits that are set in [e]. *)
Definition corrupt (e : Z) (p : list Z) : list Z :=
  map (fun '(i, b) => Z.lxor b (Z.land (Z.shiftr e (8 * Z.of_nat i)) 255)) (combine (seq 0 (length p)) p).
(** The error that inverts exactly the bits at the listed positions. *)
Definition error_at (l : list Z) : Z := fold_right (fun i e => Z.lor (2 ^ i) e) 0 l.
