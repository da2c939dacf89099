(** Configuration registers: core/function.py, core/endpoint.py, core/bridge.py.

    The attributes of a function are numbered as in ModelAttrs.v.  A read returns [None] where Python
    does, see ModelCaps.v. *)
From Verif Require Import Base ModelUtils ModelTlp ModelAttrs ModelCaps ModelCapList.

(** core/function.py:62-110 *)
Definition fn_vendor_id : attr := 1%positive.
Definition fn_device_id : attr := 2%positive.
Definition fn_io_space_enable : attr := 3%positive.
Definition fn_memory_space_enable : attr := 4%positive.
Definition fn_bus_master_enable : attr := 5%positive.
Definition fn_parity_error_response_enable : attr := 6%positive.
Definition fn_serr_enable : attr := 7%positive.
Definition fn_interrupt_disable : attr := 8%positive.
Definition fn_interrupt_status : attr := 9%positive.
Definition fn_capabilities_list : attr := 10%positive.
Definition fn_master_data_parity_error : attr := 11%positive.
Definition fn_signaled_target_abort : attr := 12%positive.
Definition fn_received_target_abort : attr := 13%positive.
Definition fn_received_master_abort : attr := 14%positive.
Definition fn_signaled_system_error : attr := 15%positive.
Definition fn_detected_parity_error : attr := 16%positive.
Definition fn_revision_id : attr := 17%positive.
Definition fn_class_code : attr := 18%positive.
Definition fn_cache_line_size : attr := 19%positive.
Definition fn_latency_timer : attr := 20%positive.
Definition fn_header_layout : attr := 21%positive.
Definition fn_multifunction_device : attr := 22%positive.
Definition fn_bist_capable : attr := 23%positive.
Definition fn_start_bist : attr := 24%positive.
Definition fn_bist_completion_code : attr := 25%positive.
Definition fn_expansion_rom_addr : attr := 26%positive.
Definition fn_expansion_rom_addr_mask : attr := 27%positive.
Definition fn_expansion_rom_enable : attr := 28%positive.
Definition fn_capabilities_ptr : attr := 29%positive.
Definition fn_interrupt_line : attr := 30%positive.
Definition fn_interrupt_pin : attr := 31%positive.
Definition fn_bar (i : Z) : attr := Z.to_pos (32 + i).
Definition fn_bar_mask (i : Z) : attr := Z.to_pos (38 + i).
(** core/endpoint.py:35-45 *)
Definition fn_subsystem_vendor_id : attr := 44%positive.
Definition fn_subsystem_id : attr := 45%positive.
(** core/bridge.py:33-78 *)
Definition fn_pri_bus_num : attr := 46%positive.
Definition fn_sec_bus_num : attr := 47%positive.
Definition fn_sub_bus_num : attr := 48%positive.
Definition fn_sec_lat_timer : attr := 49%positive.
Definition fn_io_base : attr := 50%positive.
Definition fn_io_limit : attr := 51%positive.
Definition fn_io_addr_capability : attr := 52%positive.
Definition fn_sec_master_data_parity_error : attr := 53%positive.
Definition fn_sec_signaled_target_abort : attr := 54%positive.
Definition fn_sec_received_target_abort : attr := 55%positive.
Definition fn_sec_received_master_abort : attr := 56%positive.
Definition fn_sec_received_system_error : attr := 57%positive.
Definition fn_sec_detected_parity_error : attr := 58%positive.
Definition fn_mem_base : attr := 59%positive.
Definition fn_mem_limit : attr := 60%positive.
Definition fn_prefetchable_mem_base : attr := 61%positive.
Definition fn_prefetchable_mem_limit : attr := 62%positive.
Definition fn_bridge_parity_error_response_enable : attr := 63%positive.
Definition fn_bridge_serr_enable : attr := 64%positive.
Definition fn_secondary_bus_reset : attr := 65%positive.
(** core/function.py:62-110, before the capabilities are registered *)
Definition function_init : attrs :=
  aset fn_vendor_id 0x1234 (aset fn_device_id 0xff (aset fn_capabilities_list 1 (fun _ => 0))).
(** core/endpoint.py:35-46 *)
Definition endpoint_init : attrs :=
  aset fn_vendor_id 0x1234 (aset fn_device_id 0xff (aset fn_capabilities_list 1 (fun _ => 0))).
(** core/bridge.py:32-77 *)
Definition bridge_init : attrs :=
  aset fn_vendor_id 0x1234 (aset fn_device_id 0xff (aset fn_capabilities_list 1 (aset fn_class_code 0x60400 (aset fn_header_layout 1 (aset fn_io_limit 0xfff (aset fn_io_addr_capability 1 (aset fn_mem_limit 0xfffff (aset fn_prefetchable_mem_limit 0xfffff (fun _ => 0))))))))).

(** A function: the attributes, all capability objects, the two lists of registered ones and the ID. *)
Record fnc := mkFn { f_attr : attrs; f_heap : heap; f_caps : list nat; f_ecaps : list nat; f_id : pcie_id }.
Definition with_attr (g : attrs -> attrs) (f : fnc) : fnc := mkFn (g (f_attr f)) (f_heap f) (f_caps f) (f_ecaps f) (f_id f).
Definition with_heap (g : heap -> heap) (f : fnc) : fnc := mkFn (f_attr f) (g (f_heap f)) (f_caps f) (f_ecaps f) (f_id f).
Definition with_id (i : pcie_id) (f : fnc) : fnc := mkFn (f_attr f) (f_heap f) (f_caps f) (f_ecaps f) i.

(** core/function.py:196-257 *)
Definition fn_read (f : fnc) (reg : Z) : res (option Z) :=
  let s := f_attr f in
  if reg =? 0 then  (* 197 *)
    let val := Z.land (s fn_vendor_id) 0xffff in
    let val := Z.lor val (Z.shiftl (Z.land (s fn_device_id) 0xffff) 16) in
    Ok (Some val)
  else
  if reg =? 1 then  (* 203 *)
    let val := 0 in
    let val := Z.lor val (Z.shiftl (Z.b2z (zbool (s fn_io_space_enable))) 0) in
    let val := Z.lor val (Z.shiftl (Z.b2z (zbool (s fn_memory_space_enable))) 1) in
    let val := Z.lor val (Z.shiftl (Z.b2z (zbool (s fn_bus_master_enable))) 2) in
    let val := Z.lor val (Z.shiftl (Z.b2z (zbool (s fn_parity_error_response_enable))) 6) in
    let val := Z.lor val (Z.shiftl (Z.b2z (zbool (s fn_serr_enable))) 8) in
    let val := Z.lor val (Z.shiftl (Z.b2z (zbool (s fn_interrupt_disable))) 10) in
    let val := Z.lor val (Z.shiftl (Z.b2z (zbool (s fn_interrupt_status))) 19) in
    let val := Z.lor val (Z.shiftl (Z.b2z (zbool (s fn_capabilities_list))) 20) in
    let val := Z.lor val (Z.shiftl (Z.b2z (zbool (s fn_master_data_parity_error))) 24) in
    let val := Z.lor val (Z.shiftl (Z.b2z (zbool (s fn_signaled_target_abort))) 27) in
    let val := Z.lor val (Z.shiftl (Z.b2z (zbool (s fn_received_target_abort))) 28) in
    let val := Z.lor val (Z.shiftl (Z.b2z (zbool (s fn_received_master_abort))) 29) in
    let val := Z.lor val (Z.shiftl (Z.b2z (zbool (s fn_signaled_system_error))) 30) in
    let val := Z.lor val (Z.shiftl (Z.b2z (zbool (s fn_detected_parity_error))) 31) in
    Ok (Some val)
  else
  if reg =? 2 then  (* 222 *)
    let val := Z.land (s fn_revision_id) 0xff in
    let val := Z.lor val (Z.shiftl (Z.land (s fn_class_code) 0xffffff) 8) in
    Ok (Some val)
  else
  if reg =? 3 then  (* 228 *)
    let val := Z.land (s fn_cache_line_size) 0xff in
    let val := Z.lor val (Z.shiftl (Z.land (s fn_latency_timer) 0xff) 8) in
    let val := Z.lor val (Z.shiftl (Z.land (s fn_header_layout) 0x7f) 16) in
    let val := Z.lor val (Z.shiftl (Z.b2z (zbool (s fn_multifunction_device))) 23) in
    let val := Z.lor val (Z.shiftl (Z.land (s fn_bist_completion_code) 15) 24) in
    let val := Z.lor val (Z.shiftl (Z.b2z (zbool (s fn_start_bist))) 30) in
    let val := Z.lor val (Z.shiftl (Z.b2z (zbool (s fn_bist_capable))) 31) in
    Ok (Some val)
  else
  if reg =? 13 then  (* 241 *)
    Ok (Some (Z.land (s fn_capabilities_ptr) 0xff))
  else
  if reg =? 15 then  (* 244 *)
    let val := Z.land (s fn_interrupt_line) 0xff in
    let val := Z.lor val (Z.shiftl (Z.land (s fn_interrupt_pin) 0xff) 8) in
    Ok (Some val)
  else
  if (0x10 <=? reg) && (reg <? 0x40) then  (* 250 *)
    caps_read (f_heap f) (f_caps f) reg
  else
  if (0x40 <=? reg) && (reg <? 0x400) then  (* 253 *)
    caps_read (f_heap f) (f_ecaps f) reg
  else
    Ok (Some 0).
(** core/function.py:259-300 *)
Definition fn_write (reg data mask : Z) (f : fnc) : fnc :=
  if reg =? 1 then  (* 260 *)
    with_attr (fun s =>
      let s := when (bit mask 0) (
        let s := aset fn_io_space_enable (Z.b2z (bit data 0)) s in
        let s := aset fn_memory_space_enable (Z.b2z (bit data 1)) s in
        let s := aset fn_bus_master_enable (Z.b2z (bit data 2)) s in
        let s := aset fn_parity_error_response_enable (Z.b2z (bit data 6)) s in
        s) s in
      let s := when (bit mask 1) (
        let s := aset fn_serr_enable (Z.b2z (bit data 8)) s in
        let s := aset fn_interrupt_disable (Z.b2z (bit data 10)) s in
        s) s in
      let s := when (bit mask 3) (
        let s := aclear fn_master_data_parity_error (bit data 24) s in
        let s := aclear fn_signaled_target_abort (bit data 27) s in
        let s := aclear fn_received_target_abort (bit data 28) s in
        let s := aclear fn_received_master_abort (bit data 29) s in
        let s := aclear fn_signaled_system_error (bit data 30) s in
        let s := aclear fn_detected_parity_error (bit data 31) s in
        s) s in
      s) f
  else
  if reg =? 3 then  (* 284 *)
    with_attr (fun s =>
      let s := when (bit mask 0) (
        let s := aset fn_cache_line_size (Z.land data 0xff) s in
        s) s in
      let s := when (bit mask 2) (
        let s := aset fn_start_bist (Z.b2z (bit data 30)) s in
        s) s in
      s) f
  else
  if reg =? 15 then  (* 291 *)
    with_attr (fun s =>
      let s := when (bit mask 0) (
        let s := aset fn_interrupt_line (Z.land data 0xff) s in
        s) s in
      s) f
  else
  if (0x10 <=? reg) && (reg <? 0x40) then  (* 295 *)
    with_heap (caps_write reg data mask (f_caps f)) f
  else
  if (0x40 <=? reg) && (reg <? 0x400) then  (* 298 *)
    with_heap (caps_write reg data mask (f_ecaps f)) f
  else
  f.
(** core/endpoint.py:86-134 *)
Definition ep_read (f : fnc) (reg : Z) : res (option Z) :=
  let s := f_attr f in
  if reg =? 4 then  (* 87 *)
    Ok (Some (Z.land (s (fn_bar (0))) 0xffffffff))
  else
  if reg =? 5 then  (* 90 *)
    Ok (Some (Z.land (s (fn_bar (1))) 0xffffffff))
  else
  if reg =? 6 then  (* 93 *)
    Ok (Some (Z.land (s (fn_bar (2))) 0xffffffff))
  else
  if reg =? 7 then  (* 96 *)
    Ok (Some (Z.land (s (fn_bar (3))) 0xffffffff))
  else
  if reg =? 8 then  (* 99 *)
    Ok (Some (Z.land (s (fn_bar (4))) 0xffffffff))
  else
  if reg =? 9 then  (* 102 *)
    Ok (Some (Z.land (s (fn_bar (5))) 0xffffffff))
  else
  if reg =? 10 then  (* 105 *)
    Ok (Some 0)
  else
  if reg =? 11 then  (* 108 *)
    let val := Z.land (s fn_subsystem_vendor_id) 0xffff in
    let val := Z.lor val (Z.shiftl (Z.land (s fn_subsystem_id) 0xffff) 16) in
    Ok (Some val)
  else
  if reg =? 12 then  (* 114 *)
    let val := Z.b2z (zbool (s fn_expansion_rom_enable)) in
    let val := Z.lor val (Z.land (s fn_expansion_rom_addr) 0xfffff800) in
    Ok (Some val)
  else
  if reg =? 13 then  (* 119 *)
    Ok (Some (Z.land (s fn_capabilities_ptr) 0xff))
  else
  if reg =? 14 then  (* 122 *)
    Ok (Some 0)
  else
  if reg =? 15 then  (* 125 *)
    let val := Z.land (s fn_interrupt_line) 0xff in
    let val := Z.lor val (Z.shiftl (Z.land (s fn_interrupt_pin) 0xff) 8) in
    Ok (Some val)
  else
    fn_read f reg.
(** core/endpoint.py:136-166 *)
Definition ep_write (reg data mask : Z) (f : fnc) : fnc :=
  if reg =? 4 then  (* 137 *)
    with_attr (fun s =>
      let s := aset (fn_bar (0)) (byte_mask_update (s (fn_bar (0))) mask data (s (fn_bar_mask (0)))) s in
      s) f
  else
  if reg =? 5 then  (* 140 *)
    with_attr (fun s =>
      let s := aset (fn_bar (1)) (byte_mask_update (s (fn_bar (1))) mask data (s (fn_bar_mask (1)))) s in
      s) f
  else
  if reg =? 6 then  (* 143 *)
    with_attr (fun s =>
      let s := aset (fn_bar (2)) (byte_mask_update (s (fn_bar (2))) mask data (s (fn_bar_mask (2)))) s in
      s) f
  else
  if reg =? 7 then  (* 146 *)
    with_attr (fun s =>
      let s := aset (fn_bar (3)) (byte_mask_update (s (fn_bar (3))) mask data (s (fn_bar_mask (3)))) s in
      s) f
  else
  if reg =? 8 then  (* 149 *)
    with_attr (fun s =>
      let s := aset (fn_bar (4)) (byte_mask_update (s (fn_bar (4))) mask data (s (fn_bar_mask (4)))) s in
      s) f
  else
  if reg =? 9 then  (* 152 *)
    with_attr (fun s =>
      let s := aset (fn_bar (5)) (byte_mask_update (s (fn_bar (5))) mask data (s (fn_bar_mask (5)))) s in
      s) f
  else
  if reg =? 12 then  (* 155 *)
    with_attr (fun s =>
      let s := aset fn_expansion_rom_addr (Z.land (byte_mask_update (s fn_expansion_rom_addr) mask data (s fn_expansion_rom_addr_mask)) 0xfffff800) s in
      let s := when (bit mask 0) (
        let s := aset fn_expansion_rom_enable (Z.b2z (bit data 0)) s in
        s) s in
      s) f
  else
  if reg =? 15 then  (* 161 *)
    with_attr (fun s =>
      let s := when (bit mask 0) (
        let s := aset fn_interrupt_line (Z.land data 0xff) s in
        s) s in
      s) f
  else
    fn_write reg data mask f.
(** core/bridge.py:121-198 *)
Definition br_read (f : fnc) (reg : Z) : res (option Z) :=
  let s := f_attr f in
  if reg =? 4 then  (* 122 *)
    Ok (Some (s (fn_bar (0))))
  else
  if reg =? 5 then  (* 125 *)
    Ok (Some (s (fn_bar (1))))
  else
  if reg =? 6 then  (* 128 *)
    let val := Z.land (s fn_pri_bus_num) 0xff in
    let val := Z.lor val (Z.shiftl (Z.land (s fn_sec_bus_num) 0xff) 8) in
    let val := Z.lor val (Z.shiftl (Z.land (s fn_sub_bus_num) 0xff) 16) in
    let val := Z.lor val (Z.shiftl (Z.land (s fn_sec_lat_timer) 0xff) 24) in
    Ok (Some val)
  else
  if reg =? 7 then  (* 138 *)
    let val := Z.land (s fn_io_addr_capability) 15 in
    let val := Z.lor val (Z.shiftr (Z.land (s fn_io_base) 0xf000) 8) in
    let val := Z.lor val (Z.shiftl (Z.land (s fn_io_addr_capability) 15) 8) in
    let val := Z.lor val (Z.land (s fn_io_limit) 0xf000) in
    let val := Z.lor val (Z.shiftl (Z.b2z (zbool (s fn_sec_master_data_parity_error))) 24) in
    let val := Z.lor val (Z.shiftl (Z.b2z (zbool (s fn_sec_signaled_target_abort))) 27) in
    let val := Z.lor val (Z.shiftl (Z.b2z (zbool (s fn_sec_received_target_abort))) 28) in
    let val := Z.lor val (Z.shiftl (Z.b2z (zbool (s fn_sec_received_master_abort))) 29) in
    let val := Z.lor val (Z.shiftl (Z.b2z (zbool (s fn_sec_received_system_error))) 30) in
    let val := Z.lor val (Z.shiftl (Z.b2z (zbool (s fn_sec_detected_parity_error))) 31) in
    Ok (Some val)
  else
  if reg =? 8 then  (* 153 *)
    let val := Z.shiftr (Z.land (s fn_mem_base) 0xfff00000) 16 in
    let val := Z.lor val (Z.land (s fn_mem_limit) 0xfff00000) in
    Ok (Some val)
  else
  if reg =? 9 then  (* 159 *)
    let val := Z.shiftr (Z.land (s fn_prefetchable_mem_base) 0xfff00000) 16 in
    let val := Z.lor val (Z.land (s fn_prefetchable_mem_limit) 0xfff00000) in
    let val := Z.lor val 0x10001 in
    Ok (Some val)
  else
  if reg =? 10 then  (* 167 *)
    Ok (Some (Z.land (Z.shiftr (s fn_prefetchable_mem_base) 32) 0xffffffff))
  else
  if reg =? 11 then  (* 170 *)
    Ok (Some (Z.land (Z.shiftr (s fn_prefetchable_mem_limit) 32) 0xffffffff))
  else
  if reg =? 12 then  (* 173 *)
    let val := Z.shiftr (Z.land (s fn_io_base) 0xffff0000) 16 in
    let val := Z.lor val (Z.land (s fn_io_limit) 0xffff0000) in
    Ok (Some val)
  else
  if reg =? 13 then  (* 179 *)
    Ok (Some (s fn_capabilities_ptr))
  else
  if reg =? 14 then  (* 182 *)
    let val := Z.b2z (zbool (s fn_expansion_rom_enable)) in
    let val := Z.lor val (Z.land (s fn_expansion_rom_addr) 0xfffff800) in
    Ok (Some val)
  else
  if reg =? 15 then  (* 187 *)
    let val := Z.land (s fn_interrupt_line) 0xff in
    let val := Z.lor val (Z.shiftl (Z.land (s fn_interrupt_pin) 0xff) 8) in
    let val := Z.lor val (Z.shiftl (Z.b2z (zbool (s fn_bridge_parity_error_response_enable))) 16) in
    let val := Z.lor val (Z.shiftl (Z.b2z (zbool (s fn_bridge_serr_enable))) 17) in
    let val := Z.lor val (Z.shiftl (Z.b2z (zbool (s fn_secondary_bus_reset))) 22) in
    Ok (Some val)
  else
    fn_read f reg.
(** core/bridge.py:200-277 *)
Definition br_write (reg data mask : Z) (f : fnc) : fnc :=
  let f := if reg =? 4 then  (* 201 *)
    with_attr (fun s =>
      let s := aset (fn_bar (0)) (byte_mask_update (s (fn_bar (0))) mask data (s (fn_bar_mask (0)))) s in
      s) f
    else f in
  if reg =? 5 then  (* 204 *)
    with_attr (fun s =>
      let s := aset (fn_bar (1)) (byte_mask_update (s (fn_bar (1))) mask data (s (fn_bar_mask (1)))) s in
      s) f
  else
  if reg =? 6 then  (* 207 *)
    with_attr (fun s =>
      let s := when (bit mask 0) (
        let s := aset fn_pri_bus_num (Z.land data 0xff) s in
        s) s in
      let s := when (bit mask 1) (
        let s := aset fn_sec_bus_num (Z.land (Z.shiftr data 8) 0xff) s in
        s) s in
      let s := when (bit mask 2) (
        let s := aset fn_sub_bus_num (Z.land (Z.shiftr data 16) 0xff) s in
        s) s in
      s) f
  else
  if reg =? 7 then  (* 217 *)
    with_attr (fun s =>
      let s := when (bit mask 0) (
        let s := aset fn_io_base (byte_mask_update (s fn_io_base) 2 (Z.shiftl data 8) 0xf000) s in
        s) s in
      let s := when (bit mask 1) (
        let s := aset fn_io_limit (Z.lor (byte_mask_update (s fn_io_limit) 2 data 0xf000) 0xfff) s in
        s) s in
      let s := when (bit mask 3) (
        let s := aclear fn_sec_master_data_parity_error (bit data 24) s in
        let s := aclear fn_sec_signaled_target_abort (bit data 27) s in
        let s := aclear fn_sec_received_target_abort (bit data 28) s in
        let s := aclear fn_sec_received_master_abort (bit data 29) s in
        let s := aclear fn_sec_received_system_error (bit data 30) s in
        let s := aclear fn_sec_detected_parity_error (bit data 31) s in
        s) s in
      s) f
  else
  if reg =? 8 then  (* 238 *)
    with_attr (fun s =>
      let s := aset fn_mem_base (byte_mask_update (s fn_mem_base) (Z.shiftl (Z.land mask 3) 2) (Z.shiftl data 16) 0xfff00000) s in
      let s := aset fn_mem_limit (Z.lor (byte_mask_update (s fn_mem_limit) (Z.land mask 12) data 0xfff00000) 0xfffff) s in
      s) f
  else
  if reg =? 9 then  (* 243 *)
    with_attr (fun s =>
      let s := aset fn_prefetchable_mem_base (byte_mask_update (s fn_prefetchable_mem_base) (Z.shiftl (Z.land mask 3) 2) (Z.shiftl data 16) 0xfff00000) s in
      let s := aset fn_prefetchable_mem_limit (Z.lor (byte_mask_update (s fn_prefetchable_mem_limit) (Z.land mask 12) data 0xfff00000) 0xfffff) s in
      s) f
  else
  if reg =? 10 then  (* 250 *)
    with_attr (fun s =>
      let s := aset fn_prefetchable_mem_base (byte_mask_update (s fn_prefetchable_mem_base) (Z.shiftl mask 4) (Z.shiftl data 32) (-1)) s in
      s) f
  else
  if reg =? 11 then  (* 253 *)
    with_attr (fun s =>
      let s := aset fn_prefetchable_mem_limit (byte_mask_update (s fn_prefetchable_mem_limit) (Z.shiftl mask 4) (Z.shiftl data 32) (-1)) s in
      s) f
  else
  if reg =? 12 then  (* 256 *)
    with_attr (fun s =>
      let s := aset fn_io_base (byte_mask_update (s fn_io_base) (Z.shiftl (Z.land mask 3) 2) (Z.shiftl data 16) (-1)) s in
      let s := aset fn_io_limit (byte_mask_update (s fn_io_limit) (Z.land mask 12) data (-1)) s in
      s) f
  else
  if reg =? 14 then  (* 261 *)
    with_attr (fun s =>
      let s := aset fn_expansion_rom_addr (Z.land (byte_mask_update (s fn_expansion_rom_addr) mask data (s fn_expansion_rom_addr_mask)) 0xfffff800) s in
      let s := when (bit mask 0) (
        let s := aset fn_expansion_rom_enable (Z.b2z (bit data 0)) s in
        s) s in
      s) f
  else
  if reg =? 15 then  (* 267 *)
    with_attr (fun s =>
      let s := when (bit mask 0) (
        let s := aset fn_interrupt_line (Z.land data 0xff) s in
        s) s in
      let s := when (bit mask 2) (
        let s := aset fn_bridge_parity_error_response_enable (Z.b2z (bit data 16)) s in
        let s := aset fn_bridge_serr_enable (Z.b2z (bit data 17)) s in
        let s := aset fn_secondary_bus_reset (Z.b2z (bit data 22)) s in
        s) s in
      s) f
  else
    fn_write reg data mask f.
