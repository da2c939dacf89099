(** What the UltraScale streams carry. *)
From Verif Require Import Base ModelUtils ModelFrames ModelUsStream.

(** The configurations of the hard blocks: those the classes accept, without two segments in less than 256 bits. *)
Definition good_cfg (c : us_cfg) : Prop := us_init_ok c = true /\ (sg c = 1 \/ 256 <= wd c).

(** Fields that fit, one parity nibble (and one byte enable nibble, where there are byte enables) for each DWORD. *)
Record good_frame (c : us_cfg) (f : us_frame) : Prop := {
  gf_some : us_data f <> [];
  gf_data : Forall (fun d => 0 <= d < 2 ^ 32) (us_data f);
  gf_par_len : length (us_parity f) = length (us_data f);
  gf_par : Forall (fun d => 0 <= d < 16) (us_parity f);
  gf_be : match kd c with Rc | Cq => length (us_byte_en f) = length (us_data f) /\ Forall (fun d => 0 <= d < 16) (us_byte_en f) | _ => True end;
  gf_fb : match kd c with Rq | Cq => 0 <= us_first_be f < 16 /\ 0 <= us_last_be f < 16 | _ => True end;
  gf_seq : match kd c with Rq => 0 <= us_seq f < (if (wd c =? 512) || (tuw c =? 62) then 64 else 16) | _ => True end }.
(** The frame with what the interface carries. *)
Definition carried_frame (c : us_cfg) (f : us_frame) : us_frame :=
  mkUs (us_data f) (match kd c with Rc | Cq => us_byte_en f | _ => [] end) (us_parity f)
    (match kd c with Rq | Cq => us_first_be f | _ => 0 end) (match kd c with Rq | Cq => us_last_be f | _ => 0 end)
    (us_disc f) (match kd c with Rq => us_seq f | _ => 0 end).
Definition with_disc (d : bool) (f : us_frame) : us_frame := mkUs (us_data f) (us_byte_en f) (us_parity f) (us_first_be f) (us_last_be f) d (us_seq f).
(** [g] is [f] as carried, except that it may be marked discontinued although [f] is not. *)
Definition received (c : us_cfg) (f g : us_frame) : Prop :=
  exists d, g = with_disc d (carried_frame c f) /\ (us_disc f = true -> d = true).
