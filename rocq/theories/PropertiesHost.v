(** Configuration accesses by the host (C24). *)
From Verif Require Import Base ModelUtils ModelTlp ModelAttrs ModelCaps ModelCapList ModelConfig ModelFunction ModelHost
  SpecRegs SpecConfig SpecHost ProofsHost PropertiesCapList PropertiesConfig.

(** The function is the one with device and function number of [dev]; it takes over the bus number. *)
(** A read returns the bytes of the configuration space and changes nothing else. *)
Theorem C24_read : forall rd wr ms tg crs dev addr n f, In (rd, wr, ms) cfg_kinds -> 0 <= n -> at_id dev f ->
  (forall r, addr / 4 <= r <= (addr + n - 1) / 4 -> readable rd f r) ->
  exists d, config_read (cfg_deliver rd wr tg) crs dev addr n f = Ok (if n =? 0 then f else with_id dev f, d) /\ zlen d = n /\
    forall k, 0 <= k < n -> cfg_byte rd f (addr + k) = Some (nth (Z.to_nat k) d 0).
Proof. exact host_read. Qed.
(** A write consists of register writes which together enable exactly the bytes of the access, each once, in order
    and with its value, and of no other register writes. *)
Theorem C24_accesses : forall rd wr ms tg dev addr d f, In (rd, wr, ms) cfg_kinds -> at_id dev f -> bytes_ok d -> d <> [] ->
  exists ws, config_write (cfg_deliver rd wr tg) dev addr d f = Ok (write_all wr ws (with_id dev f)) /\
    flat_map lanes ws = map (fun k => (addr + Z.of_nat k, nth k d 0)) (List.seq 0 (length d)) /\ Forall (fun w => lanes w <> []) ws.
Proof. exact host_accesses. Qed.
(** A write changes exactly the addressed bytes as far as they are writable.  Missing from the full statement: the
    bits for which the registers themselves are wrong (C23). *)
Theorem C24_write_partial : forall rd wr ms tg dev addr d f, In (rd, wr, ms) cfg_kinds -> at_id dev f -> bytes_ok d ->
  exists f', config_write (cfg_deliver rd wr tg) dev addr d f = Ok f' /\ (d <> [] -> f_id f' = dev) /\
    forall r v rw w1c exc, rd f r = Ok (Some v) -> ms f r = Some (rw, w1c, exc) ->
    exists v', rd f' r = Ok (Some v') /\ ms f' r = Some (rw, w1c, exc) /\
      (forall i, 0 <= i -> Z.testbit exc i = false -> Z.testbit v' i = host_bit rw w1c addr d r v i) /\
      (d = [] \/ 4 * r + 4 <= addr \/ addr + zlen d <= 4 * r -> v' = v).
Proof. exact host_write. Qed.
(** Another device or function number: reads return all ones, writes change nothing. *)
Theorem C24_absent : forall rd wr tg crs dev addr n d f, 0 <= n -> device (f_id f) <> device dev \/ func (f_id f) <> func dev ->
  config_read (cfg_deliver rd wr tg) crs dev addr n f = Ok (f, repeat 0xff (Z.to_nat n)) /\
  config_write (cfg_deliver rd wr tg) dev addr d f = Ok f.
Proof. intros. split; [apply host_read_other; assumption|apply config_write_other; assumption]. Qed.

(** The endpoint of the examples of C23, from address 0x0d on: part of register 3, BAR 0 and part of BAR 1. *)
Definition rdw (x : res (fnc * list Z)) : option (pcie_id * list Z) := match x with Ok (f, d) => Some (f_id f, d) | Err _ => None end.
Definition host_ex (addr : Z) (d : list Z) (raddr n : Z) : option (pcie_id * list Z) :=
  match config_write (cfg_deliver ep_read ep_write (fun _ => 7)) (mkId 5 0 0) addr d f_ex with
  | Ok f => rdw (config_read (cfg_deliver ep_read ep_write (fun _ => 9)) None (mkId 5 0 0) raddr n f)
  | Err _ => None
  end.
Example C24_ex :
  at_id (mkId 5 0 0) f_ex /\ f_id f_ex = mkId 0 0 0 /\
  host_ex 0x0c [1; 2; 3; 4; 5; 6; 7; 8] 0x0b 11 = Some (mkId 5 0 0, [0; 1; 0; 0; 0; 0; 0; 7; 8; 0; 0]) /\
  host_ex 0x12 [0xaa; 0xbb; 0xcc] 0x10 5 = Some (mkId 5 0 0, [0; 0; 0xaa; 0xbb; 0]) /\
  host_ex 0x45 [0x11; 0x22; 0x33; 0x44] 0x44 5 = Some (mkId 5 0 0, [0; 0x11; 0x22; 0x33; 0x44]).
Proof. vm_compute. repeat split; discriminate. Qed.
Example C24_readable_ex : forall r, 0 <= r <= 16 -> readable ep_read f_ex r.
Proof.
  intros r H. assert (C : In r [0;1;2;3;4;5;6;7;8;9;10;11;12;13;14;15;16]) by (cbn; lia).
  repeat (destruct C as [<-|C]; [eexists; split; [vm_compute; reflexivity|cbn; lia]|]). destruct C.
Qed.

Print Assumptions C24_read.
Print Assumptions C24_accesses.
Print Assumptions C24_write_partial.
Print Assumptions C24_absent.
