(** core/dllp.py: data link layer packets and their CRC. *)
From Verif Require Import Base ModelTlp.

(** core/dllp.py:30-52 [DllpType], an [IntEnum]. *)
Definition D_ACK := 0x00.
Definition D_MR_INIT := 0x01.
Definition D_DATA_LINK_FEATURE := 0x02.
Definition D_NAK := 0x10.
Definition D_PM_ENTER_L1 := 0x20.
Definition D_PM_ENTER_L23 := 0x21.
Definition D_PM_ACT_ST_REQ_L1 := 0x23.
Definition D_PM_REQ_ACK := 0x24.
Definition D_VEND := 0x30.
Definition D_NOP := 0x31.
Definition D_INIT_FC1_P := 0x40.
Definition D_INIT_FC1_NP := 0x50.
Definition D_INIT_FC1_CPL := 0x60.
Definition D_MR_INIT_FC1 := 0x70.
Definition D_INIT_FC2_P := 0xc0.
Definition D_INIT_FC2_NP := 0xd0.
Definition D_INIT_FC2_CPL := 0xe0.
Definition D_MR_INIT_FC2 := 0xf0.
Definition D_UPDATE_FC_P := 0x80.
Definition D_UPDATE_FC_NP := 0x90.
Definition D_UPDATE_FC_CPL := 0xa0.
Definition D_MR_UPDATE_FC := 0xb0.
Definition dllp_types : list Z :=
  [D_ACK; D_MR_INIT; D_DATA_LINK_FEATURE; D_NAK; D_PM_ENTER_L1; D_PM_ENTER_L23; D_PM_ACT_ST_REQ_L1;
   D_PM_REQ_ACK; D_VEND; D_NOP; D_INIT_FC1_P; D_INIT_FC1_NP; D_INIT_FC1_CPL; D_MR_INIT_FC1;
   D_INIT_FC2_P; D_INIT_FC2_NP; D_INIT_FC2_CPL; D_MR_INIT_FC2; D_UPDATE_FC_P; D_UPDATE_FC_NP;
   D_UPDATE_FC_CPL; D_MR_UPDATE_FC].

Definition zmem (x : Z) (l : list Z) : bool := existsb (Z.eqb x) l.

(** core/dllp.py:55-56 *)
Definition DLLP_FC_TYPE_MASK := 0xf8.
Definition DLLP_FC_VC_MASK := 0x07.

(** The sets of core/dllp.py:148, 150-151 and 156-158. *)
Definition d_seq_types : list Z := [D_ACK; D_NAK].
Definition d_plain_types : list Z := [D_NOP; D_PM_ENTER_L1; D_PM_ENTER_L23; D_PM_ACT_ST_REQ_L1; D_PM_REQ_ACK].
Definition d_fc_types : list Z :=
  [D_INIT_FC1_P; D_INIT_FC1_NP; D_INIT_FC1_CPL; D_INIT_FC2_P; D_INIT_FC2_NP; D_INIT_FC2_CPL;
   D_UPDATE_FC_P; D_UPDATE_FC_NP; D_UPDATE_FC_CPL].

(** core/dllp.py:65-75 [dllp_type_fc_type_mapping] *)
Definition dllp_fc_type (ty : Z) : res fc_type :=
  if zmem ty [D_INIT_FC1_P; D_INIT_FC2_P; D_UPDATE_FC_P] then Ok FC_P
  else if zmem ty [D_INIT_FC1_NP; D_INIT_FC2_NP; D_UPDATE_FC_NP] then Ok FC_NP
  else if zmem ty [D_INIT_FC1_CPL; D_INIT_FC2_CPL; D_UPDATE_FC_CPL] then Ok FC_CPL
  else Err KeyError.

(** core/dllp.py:78-82 [FcScale] *)
Definition fc_scale (v : Z) : res Z := if (0 <=? v) && (v <=? 3) then Ok v else Err ValueError.

(** core/dllp.py:88-92, one step of the bit loop, then the loop over eight bits. *)
Definition crc_step (poly crc : Z) : Z :=
  if zbool (Z.land crc 1) then Z.lxor (Z.shiftr crc 1) poly else Z.shiftr crc 1.
Fixpoint crc_steps (n : nat) (poly crc : Z) : Z :=
  match n with O => crc | S n => crc_steps n poly (crc_step poly crc) end.
(** core/dllp.py:85-93 [crc16] *)
Definition crc_poly := 0xD008.
Fixpoint crc16_from (data : list Z) (crc : Z) : Z :=
  match data with
  | [] => crc
  | d :: r => crc16_from r (crc_steps 8 crc_poly (Z.lxor crc d))
  end.
Definition crc16 (data : list Z) : Z := crc16_from data 0xFFFF.

(** core/dllp.py:97-106 *)
Record dllp := mkDllp {
  d_type : Z; d_seq : Z; d_vc : Z; d_hdr_scale : Z; d_hdr_fc : Z; d_data_scale : Z; d_data_fc : Z;
  d_feature_support : Z; d_feature_ack : bool }.
Definition dllp0 : dllp := mkDllp D_NOP 0 0 0 0 0 0 0 false.

(** core/dllp.py:119-131 *)
Definition create_ack (seq : Z) : dllp := mkDllp D_ACK seq 0 0 0 0 0 0 false.
Definition create_nak (seq : Z) : dllp := mkDllp D_NAK seq 0 0 0 0 0 0 false.
(** core/dllp.py:133-139 *)
Definition d_size := 6.
Definition d_wire_size := 8.
(** core/dllp.py:141-142 *)
Definition d_get_fc_type (d : dllp) : res fc_type := dllp_fc_type (d_type d).

(** core/dllp.py:144-167 [Dllp.pack] *)
Definition d_pack (d : dllp) : res (list Z) :=
  let dw := Z.shiftl (Z.land (d_type d) 0xff) 24 in
  dw <- (if zmem (d_type d) d_seq_types then Ok (Z.lor dw (Z.land (d_seq d) 0xfff))
         else if zmem (d_type d) d_plain_types then Ok dw
         else if d_type d =? D_DATA_LINK_FEATURE then
           Ok (Z.lor (Z.lor dw (Z.land (d_feature_support d) 0x7fffff)) (Z.shiftl (Z.b2z (d_feature_ack d)) 23))
         else if zmem (Z.land (d_type d) DLLP_FC_TYPE_MASK) d_fc_types then
           let dw := Z.lor dw (Z.shiftl (Z.land (d_vc d) DLLP_FC_VC_MASK) 24) in
           let dw := Z.lor dw (Z.land (d_data_fc d) 0xfff) in
           let dw := Z.lor dw (Z.shiftl (Z.land (d_data_scale d) 3) 12) in
           let dw := Z.lor dw (Z.shiftl (Z.land (d_hdr_fc d) 0xff) 14) in
           Ok (Z.lor dw (Z.shiftl (Z.land (d_hdr_scale d) 3) 22))
         else Err PyException) ;;
  struct_pack_be 4 dw.

(** core/dllp.py:169-175 [Dllp.pack_crc] *)
Definition d_pack_crc (d : dllp) : res (list Z) :=
  pkt <- d_pack d ;;
  c <- struct_pack_le 2 (Z.land (Z.lnot (crc16 pkt)) 0xffff) ;;
  Ok (pkt ++ c).

(** core/dllp.py:177-208 [Dllp.unpack] *)
Definition d_unpack (pkt : list Z) : res dllp :=
  dw <- struct_unpack_be 4 pkt 0 ;;
  let ty := Z.land (Z.shiftr dw 24) 0xff in
  d <- (if zmem ty d_seq_types then Ok (mkDllp ty (Z.land dw 0xfff) 0 0 0 0 0 0 false)
        else if zmem ty d_plain_types then Ok (mkDllp ty 0 0 0 0 0 0 0 false)
        else if ty =? D_DATA_LINK_FEATURE then
          Ok (mkDllp ty 0 0 0 0 0 0 (Z.land dw 0x7fffff) (zbool (Z.land dw (Z.shiftl 1 23))))
        else if zmem (Z.land ty DLLP_FC_TYPE_MASK) d_fc_types then
          ds <- fc_scale (Z.land (Z.shiftr dw 12) 3) ;;
          hs <- fc_scale (Z.land (Z.shiftr dw 22) 3) ;;
          Ok (mkDllp (Z.land ty DLLP_FC_TYPE_MASK) 0 (Z.land (Z.shiftr dw 24) DLLP_FC_VC_MASK) hs
                (Z.land (Z.shiftr dw 14) 0xff) ds (Z.land dw 0xfff) 0 false)
        else Err PyException) ;;
  if zmem (d_type d) dllp_types then Ok d else Err ValueError.

(** core/dllp.py:210-220 [Dllp.unpack_crc] *)
Definition d_unpack_crc (pkt : list Z) : res dllp :=
  if negb (zlen pkt =? 6) then Err PyException
  else if negb (crc16 pkt =? 0x556f) then Err PyException
  else d_unpack (firstn 4 pkt).

(** core/dllp.py:222-235 [Dllp.__eq__] *)
Definition d_eqb (a b : dllp) : bool :=
  (d_type a =? d_type b) && (d_seq a =? d_seq b) && (d_vc a =? d_vc b) &&
  (d_hdr_scale a =? d_hdr_scale b) && (d_hdr_fc a =? d_hdr_fc b) &&
  (d_data_scale a =? d_data_scale b) && (d_data_fc a =? d_data_fc b) &&
  (d_feature_support a =? d_feature_support b) && Bool.eqb (d_feature_ack a) (d_feature_ack b).
