{
 "claims": [
  {
   "property": "C01",
   "status": "proved",
   "theorems": [
    "C01_roundtrip",
    "C01_roundtrip_equal",
    "C01_eq_meaning",
    "C01_layout",
    "C01_reject",
    "C01_reject_unknown",
    "C01_ur_completion_refuted",
    "C01_copy_refuted"
   ],
   "note": "All supported types, all field values in range (byte count 1..4096, the encodable range), arbitrary payload; also wire layout and rejection of other types. Refuted side facts: completions created with byte count 0 come back as 4096; the copy constructor drops TH."
  },
  {
   "property": "C02",
   "status": "proved",
   "theorems": [
    "C02_canonical",
    "C02_injective"
   ],
   "note": "For every byte string accepted by unpack; injectivity up to the fields the type does not carry."
  },
  {
   "property": "C03",
   "status": "proved",
   "theorems": [
    "C03_roundtrip",
    "C03_roundtrip_crc",
    "C03_reject",
    "C03_canonical",
    "C03_eq_meaning"
   ],
   "note": "All supported types and field values, with wire layout, canonical decoding, rejection of the other types."
  },
  {
   "property": "C04",
   "status": "proved",
   "theorems": [
    "C04_few_bits",
    "C04_burst",
    "C04_length",
    "C04_odd_refuted"
   ],
   "note": "All error patterns of weight 1-4, all bursts up to 16 bits, all wrong lengths; sharp (weight 5 counterexample)."
  },
  {
   "property": "C05",
   "status": "proved",
   "theorems": [
    "C05_bytes",
    "C05_minimal",
    "C05_getters",
    "C05_zero"
   ],
   "note": "All integers addr, all lengths >= 1, and length 0."
  },
  {
   "property": "C06",
   "status": "proved",
   "theorems": [
    "C06_payload",
    "C06_empty"
   ],
   "note": "All addresses, all byte strings."
  },
  {
   "property": "C07",
   "status": "partial",
   "theorems": [
    "C07_lower_address_refuted",
    "C07_lower_address_partial",
    "C07_lower_address_aligned_partial"
   ],
   "note": "False of the code as stated (operator precedence in get_lower_address): refuted with witness; proved value and correctness for DWORD-aligned requests."
  },
  {
   "property": "C08",
   "status": "partial",
   "theorems": [
    "C08_check_complete",
    "C08_check_sound_refuted",
    "C08_check_length_refuted",
    "C08_check_sound_partial"
   ],
   "note": "check accepts every legal TLP (proved); the converse is refuted (dead IO/CFG rule, chained comparison on the length) and proved for the remaining types and payloads up to 4096 bytes."
  },
  {
   "property": "C09",
   "status": "proved",
   "theorems": [
    "C09_write_requests",
    "C09_zero"
   ],
   "note": "write segmentation: exact coverage, limits, type, validation; zero-length writes"
  },
  {
   "property": "C10",
   "status": "proved",
   "theorems": [
    "C10_read_requests"
   ],
   "note": "read segmentation"
  },
  {
   "property": "C11",
   "status": "proved",
   "theorems": [
    "C11_endpoint",
    "C11_root_complex",
    "C11_payload",
    "C11_valid",
    "C11_span",
    "C11_unsupported",
    "C11_past_end_refuted",
    "C11_zero_length_refuted"
   ],
   "note": "both completers; requests that stay inside the BAR / host region. Two findings (past the end of a BAR, zero-length lower address) as _refuted theorems"
  },
  {
   "property": "C12",
   "status": "proved",
   "theorems": [
    "C12_read",
    "C12_root_complex",
    "C12_endpoint",
    "C12_failure",
    "C12_length"
   ],
   "note": "requester against any correct completer, instantiated with both completers; unsuccessful completions raise; length of the result"
  },
  {
   "property": "C13",
   "status": "proved",
   "theorems": [
    "C13_root_complex",
    "C13_endpoint"
   ],
   "note": "both completers"
  },
  {
   "property": "C14",
   "status": "proved",
   "theorems": [
    "C14_endpoint_mem",
    "C14_root_complex_mem",
    "C14_endpoint_io",
    "C14_root_complex_io",
    "C14_enabled"
   ],
   "note": "memory and IO writes of both completers, any byte enables"
  },
  {
   "property": "C15",
   "status": "proved",
   "theorems": [
    "C15_no_overrun",
    "C15_conservative",
    "C15_gate",
    "C15_received"
   ],
   "note": "Over all schedules of two connected ports from their construction on, by an invariant that relates wrapped counters with unbounded totals; VC0."
  },
  {
   "property": "C16",
   "status": "proved",
   "theorems": [
    "C16_counters",
    "C16_once",
    "C16_restored",
    "C16_update",
    "C16_initialises"
   ],
   "note": "Receiver counters exact, second release without effect, full credit restored once an update sent after the last release arrives."
  },
  {
   "property": "C17",
   "status": "proved",
   "theorems": [
    "C17_no_error",
    "C17_in_order",
    "C17_conserved",
    "C17_sequence",
    "C17_content_refuted"
   ],
   "note": "Order, exactly once and no exception for all schedules; content modulo the TH bit, which the receiver's copy loses (C17_content_refuted)."
  },
  {
   "property": "C18",
   "status": "proved",
   "theorems": [
    "C18_suffix",
    "C18_exact",
    "C18_acknowledges",
    "C18_unbounded_refuted"
   ],
   "note": "C18_suffix unconditional; C18_exact for executions with at most 2048 unacknowledged TLPs, false beyond (C18_unbounded_refuted)."
  },
  {
   "property": "C19",
   "status": "proved",
   "theorems": [
    "C19_unique",
    "C19_range",
    "C19_call",
    "C19_wake",
    "C19_no_error",
    "C19_delivery",
    "C19_failed_keeps_tag"
   ],
   "note": "Transition system over all interleavings of calls, wake-ups, sends, completions, timeouts and configuration changes. If send raises, the tag is never released (C19_failed_keeps_tag)."
  },
  {
   "property": "C20",
   "status": "partial",
   "theorems": [
    "C20_refuted",
    "C20_own_partial",
    "C20_no_timeout_partial"
   ],
   "note": "False of the code (C20_refuted): a completion that arrives after the timeout is given to the next request with the tag. Proved for all executions in which every completion arrives while its request is outstanding (C20_own_partial), in particular those without timeouts with completers that stop after the ending completion (C20_no_timeout_partial)."
  },
  {
   "property": "C21",
   "status": "partial",
   "theorems": [
    "C21_decode_partial",
    "C21_disjoint_partial",
    "C21_tlp_partial",
    "C21_high_refuted",
    "C21_large_refuted"
   ],
   "note": "Exact decoding (claims, offsets, no confusion) for windows below 4 GiB and addresses expressible in the BARs of that kind; refuted for 32-bit BARs with addresses above 4 GiB and for 64-bit BARs of 4 GiB or more."
  },
  {
   "property": "C22",
   "status": "partial",
   "theorems": [
    "C22_configured",
    "C22_kept",
    "C22_reads",
    "C22_sizing",
    "C22_base",
    "C22_probe_partial",
    "C22_probe_refuted"
   ],
   "note": "Configuration, sizing, base assignment, constancy of type bits proved in full; the host's probe reports all sizes and leaves all BARs except the upper half of 64-bit ones (refuted)."
  },
  {
   "property": "C23",
   "status": "partial",
   "theorems": [
    "C23_function_partial",
    "C23_endpoint_partial",
    "C23_bridge_partial",
    "C23_function_layout",
    "C23_endpoint_layout",
    "C23_bridge_layout",
    "C23_bist_refuted"
   ],
   "note": "all bits of all registers except Start BIST (refuted) and the capability bits refuted in C26, C27, C43"
  },
  {
   "property": "C24",
   "status": "partial",
   "theorems": [
    "C24_read",
    "C24_accesses",
    "C24_write_partial",
    "C24_absent"
   ],
   "note": "Host reads give exactly the register bytes; writes are exactly the enabled byte lanes; missing devices give all ones / no change. Written bits follow their masks except those where the registers themselves are wrong (C23, C26, C27, C43)."
  },
  {
   "property": "C25",
   "status": "partial",
   "theorems": [
    "C25_members",
    "C25_chain_partial",
    "C25_chain_register",
    "C25_disjoint_partial",
    "C25_first_fit",
    "C25_owner_partial",
    "C25_walk_partial",
    "C25_walk_ext_partial",
    "C25_auto",
    "C25_auto_walk",
    "C25_auto_walk_ext",
    "C25_disjoint_refuted",
    "C25_walk_refuted",
    "C25_space_refuted"
   ],
   "note": "Membership and order are full. Chain, walk, disjointness and ownership exclude the three cases in which they are false (refuted theorems): automatic positions one register too short, deregistrations, capabilities beyond the space. Registrations without offset of the library's classes: full (C25_auto, C25_auto_walk, C25_auto_walk_ext)."
  },
  {
   "property": "C26",
   "status": "partial",
   "theorems": [
    "C26_writes_partial",
    "C26_layout_partial",
    "C26_ext_writes",
    "C26_ext_layout_partial",
    "C26_writes_refuted",
    "C26_layout_refuted",
    "C26_ext_layout_refuted"
   ],
   "note": "all bits but the listed exceptions, each refuted with a witness"
  },
  {
   "property": "C27",
   "status": "partial",
   "theorems": [
    "C27_aer_writes",
    "C27_aer_layout_partial",
    "C27_pm_writes_partial",
    "C27_pm_layout",
    "C27_pm_writes_refuted",
    "C27_aer_layout_refuted"
   ],
   "note": "all bits but the listed exceptions, each refuted with a witness"
  },
  {
   "property": "C28",
   "status": "partial",
   "theorems": [
    "C28_msix",
    "C28_msi_partial",
    "C28_count",
    "C28_events",
    "C28_msi_refuted"
   ],
   "note": "C28_msix: for every history of initialisation, allocation and release of any number of functions, an MSI-X interrupt of vector i sets exactly event i of its function. C28_msi_partial: the same for MSI, given that the message data of the function is aligned to 32 and below 65536; C28_msi_refuted shows that without it the code signals the wrong event (alignment bug in alloc_vectors). C28_count: how many vectors a driver gets, and which of the two is on. C28_events: only four bytes at the address of the region set an event."
  },
  {
   "property": "C29",
   "status": "partial",
   "theorems": [
    "C29_windows",
    "C29_upstream",
    "C29_converted",
    "C29_downstream",
    "C29_send",
    "C29_messages_refuted"
   ],
   "note": "Windows, forwarding, conversion and UR answers in full for configuration, memory, IO requests and completions; messages raise (refuted)."
  },
  {
   "property": "C30",
   "status": "proved",
   "theorems": [
    "C30_one_place",
    "C30_content",
    "C30_answers",
    "C30_route",
    "C30_target",
    "C30_progress",
    "C30_rest",
    "C30_errors",
    "C30_device",
    "C30_device_config"
   ],
   "note": "For every number of ports/functions and every schedule; messages, locked and atomic types are excluded as in C29."
  },
  {
   "property": "C31",
   "status": "proved",
   "theorems": [
    "C31_functions",
    "C31_append",
    "C31_add",
    "C31_multifunction",
    "C31_ports",
    "C31_ports_distinct"
   ],
   "note": "For every history of additions and bus captures; ports for every list of existing ports."
  },
  {
   "property": "C32",
   "status": "proved",
   "theorems": [
    "C32_enumeration",
    "C32_ranges",
    "C32_found",
    "C32_access",
    "C32_limit",
    "C32_type0",
    "C32_type1"
   ],
   "note": "All trees of functions with up to 256 buses, for the sequence of configuration accesses of scan; more buses raise."
  },
  {
   "property": "C33",
   "status": "partial",
   "theorems": [
    "C33_layout",
    "C33_contained_partial",
    "C33_answers",
    "C33_space",
    "C33_exclusive",
    "C33_bridge",
    "C33_refuted",
    "C33_stray_refuted"
   ],
   "note": "Alignment, disjointness and completeness (C33_layout), what functions answer to (C33_answers), success when there is space (C33_space), the bridge's own windows (C33_bridge) and, for usual topologies, that windows pass nothing else (C33_exclusive) hold for all trees; containment in the windows holds whenever the addresses handed out stay below 4 GiB / 2^64 (C33_contained_partial), else it is false (C33_refuted)."
  },
  {
   "property": "C34",
   "status": "partial",
   "theorems": [
    "C34_own",
    "C34_partial",
    "C34_default",
    "C34_refuted"
   ],
   "note": "False in general (C34_refuted); exact condition proved (C34_partial), true with the host's default size (C34_default); every function within its own limit (C34_own)."
  },
  {
   "property": "C35",
   "status": "proved",
   "theorems": [
    "C35_align",
    "C35_align_id",
    "C35_byte_mask_update",
    "C35_byte_mask_update_bytes",
    "C35_id_construct",
    "C35_id_roundtrip_int",
    "C35_id_roundtrip"
   ],
   "note": "All integers / all masks."
  },
  {
   "property": "C36",
   "status": "proved",
   "theorems": [
    "C36_cq",
    "C36_cc",
    "C36_rq",
    "C36_rq_cfg",
    "C36_rc",
    "C36_cq_layout",
    "C36_cc_layout",
    "C36_rq_layout",
    "C36_rc_layout",
    "C36_cq_be",
    "C36_rc_be",
    "C36_parity",
    "C36_parity_packed",
    "C36_cq_parity_bits",
    "C36_cq_parity_partial",
    "C36_reject",
    "C36_cq_parity_refuted",
    "C36_copy_refuted",
    "C36_request_completed_refuted"
   ],
   "note": "Round trips on all four interfaces in every field carried, layouts, byte enables, rejection of other types; corrupted parity bits and odd corruptions are detected, except a flip of bit 14 of DWORD 2 on CQ (C36_cq_parity_refuted)."
  },
  {
   "property": "C37",
   "status": "partial",
   "theorems": [
    "C37_received_partial",
    "C37_order",
    "C37_delivered",
    "C37_discontinue_refuted",
    "C37_narrow_refuted",
    "C37_empty_refuted",
    "C37_seq_refuted",
    "C37_layout_partial",
    "C37_layout_refuted"
   ],
   "note": "Proved for every configuration without two segments in less than 256 bits, every sequence of frames, arrival pattern and pause pattern: order and content (C37_order), eventual delivery (C37_delivered), position of every field on the bus as in the product guides (C37_layout_partial). False of the code: the discontinue mark may leak to frames in the same beat when straddling (bounded by C37_received_partial); byte enables of CQ packets behind the end of another one (C37_layout_refuted)."
  },
  {
   "property": "C38",
   "status": "proved",
   "theorems": [
    "C38_convert",
    "C38_order",
    "C38_delivered",
    "C38_tlps",
    "C38_tlps_delivered",
    "C38_func_refuted",
    "C38_abort_refuted",
    "C38_empty_refuted",
    "C38_length_refuted",
    "C38_partial_dword_refuted"
   ],
   "note": "TLPs with the payload they announce convert to frames and back for both devices; every sequence of frames keeps order, data and metadata over every schedule, width, segment count, ready latency and choice of optional signals, and is delivered. tlp_abort, H-tile function numbers that do not fit and frames whose length differs from their header are excluded (refuted, see DESIGN.md)."
  },
  {
   "property": "C39",
   "status": "proved",
   "theorems": [
    "C39_dword",
    "C39_parity",
    "C39_payload",
    "C39_single",
    "C39_us",
    "C39_s10",
    "C39_ptile_update",
    "C39_ptile",
    "C39_even"
   ],
   "note": "All words, all odd flips per byte, payload, header and prefix, all three vendor frames; even flips shown undetected"
  },
  {
   "property": "C40",
   "status": "proved",
   "theorems": [
    "C40_write",
    "C40_read",
    "C40_read_fails",
    "C40_layout",
    "C40_words",
    "C40_word",
    "C40_byte",
    "C40_sizes",
    "C40_host",
    "C40_bar",
    "C40_io_bar",
    "C40_config",
    "C40_capability"
   ],
   "note": "Every list of words, word size, byte order, address; any byte window, instantiated with host memory, memory BARs, IO BARs end to end; configuration space reads"
  },
  {
   "property": "C41",
   "status": "proved",
   "theorems": [
    "C41_size",
    "C41_credits",
    "C41_has_data",
    "C41_fc_type"
   ],
   "note": "All supported types."
  },
  {
   "property": "C42",
   "status": "proved",
   "theorems": [
    "C42_read_requests",
    "C42_write_requests",
    "C42_read",
    "C42_read_endpoint",
    "C42_answer_root_complex",
    "C42_write_endpoint",
    "C42_zero_write",
    "C42_zero_read"
   ],
   "note": "IO reads and writes end to end"
  },
  {
   "property": "C43",
   "status": "partial",
   "theorems": [
    "C43_msi_writes_partial",
    "C43_msi_layout",
    "C43_msix_writes",
    "C43_msix_layout",
    "C43_msi_refuted",
    "C43_msi_none_refuted"
   ],
   "note": "all bits except the extended message data enable (refuted); unimplemented registers read as None (refuted)"
  },
  {
   "property": "C44",
   "status": "partial",
   "theorems": [
    "C44_upstream",
    "C44_downstream",
    "C44_function_recv",
    "C44_function_send",
    "C44_send_partial",
    "C44_send_refuted"
   ],
   "note": "All status bits except signaled target abort for completions that a bridge sends to its secondary side (refuted)."
  },
  {
   "property": "C45",
   "status": "proved",
   "theorems": [
    "C45_distinct",
    "C45_shown",
    "C45_user_tags_refuted"
   ],
   "note": "Outstanding requests have distinct tags; tags of the core are in range and shown in order, over all schedules. C45_user_tags_refuted is a finding outside the statement: tags of the user are not range-checked when the request waited for credits."
  },
  {
   "property": "C46",
   "status": "proved",
   "theorems": [
    "C46_arrival",
    "C46_code",
    "C46_split"
   ],
   "note": "Every completion is judged as specified against the outstanding requests at its arrival; correct completers give normal codes and consecutive addresses."
  },
  {
   "property": "C47",
   "status": "proved",
   "theorems": [
    "C47_order",
    "C47_kinds",
    "C47_behind",
    "C47_room",
    "C47_delivered"
   ],
   "note": "Order, passing of posted requests, room and delivery for all schedules."
  },
  {
   "property": "C48",
   "status": "partial",
   "theorems": [
    "C48_request_partial",
    "C48_config",
    "C48_disabled",
    "C48_type1",
    "C48_completion",
    "C48_aperture_refuted",
    "C48_completer_refuted"
   ],
   "note": "Routing proved; aperture and completer id of functions other than the first refuted; windows as in C21."
  },
  {
   "property": "C49",
   "status": "partial",
   "theorems": [
    "C49_buffer",
    "C49_told",
    "C49_space_refuted"
   ],
   "note": "Buffer accounting, order and error report proved; that completions of outstanding requests always find space is refuted."
  },
  {
   "property": "C50",
   "status": "partial",
   "theorems": [
    "C50_accept",
    "C50_requests",
    "C50_sequence",
    "C50_posted",
    "C50_reads_partial",
    "C50_tag_refuted",
    "C50_credit_refuted",
    "C50_order_refuted",
    "C50_extended_refuted"
   ],
   "note": "Forwarding once and unchanged, sequence numbers and order of posted requests proved; order and progress of non-posted requests proved for user tags without payload, refuted otherwise."
  },
  {
   "property": "C51",
   "status": "partial",
   "theorems": [
    "C51_walk_partial",
    "C51_walk_auto",
    "C51_lookup",
    "C51_read",
    "C51_write",
    "C51_pcie_partial",
    "C51_not_pcie",
    "C51_phantom_refuted",
    "C51_loop_refuted"
   ],
   "note": "Walk, lookups, accesses and recognition of PCI Express functions proved for all histories without deregistration in which C25's placement is right; refuted after deregistrations (phantom capability, endless walk)."
  },
  {
   "property": "C52",
   "status": "partial",
   "theorems": [
    "C52_walk_partial",
    "C52_extended_refuted",
    "C52_msi_partial",
    "C52_msi_refuted",
    "C52_msix",
    "C52_payload",
    "C52_tags"
   ],
   "note": "C52_walk_partial (legacy capabilities), C52_msi_partial, C52_msix, C52_payload proved for all configurations and later uses; false of the code: extended capabilities (C52_extended_refuted), MSI counts of PF2/PF3 (C52_msi_refuted)"
  },
  {
   "property": "C53",
   "status": "partial",
   "theorems": [
    "C53_request_partial",
    "C53_config",
    "C53_type1",
    "C53_completion",
    "C53_order",
    "C53_drained",
    "C53_drop",
    "C53_buffer_partial",
    "C53_sizes",
    "C53_tx",
    "C53_user",
    "C53_buffer_refuted",
    "C53_func_refuted",
    "C53_func_raises_refuted",
    "C53_master_refuted"
   ],
   "note": "False of the code: completion count (C53_buffer_refuted), function number of requests (C53_func_refuted, C53_func_raises_refuted), bus mastering (C53_master_refuted). Proved: routing to BARs (C53_request_partial), configuration, completions, order, draining, drops only when full, excess bounded by requests that left (C53_buffer_partial), transmission."
  },
  {
   "property": "C54",
   "status": "partial",
   "theorems": [
    "C54_words_partial",
    "C54_turns",
    "C54_follows_partial",
    "C54_msi_start",
    "C54_msi_kept",
    "C54_ltile_refuted",
    "C54_ltile_enable_refuted",
    "C54_ltile_width_refuted"
   ],
   "note": "The AER interrupt message number in word 1 of the L-Tile is wrong in the code (refuted); every other field of all three tiles is proved, for every number of functions, history and cycle. C54_follows_partial leaves out Extended Message Data Enable, whose write is wrong in the code (C43_msi_refuted)."
  },
  {
   "property": "C55",
   "status": "partial",
   "theorems": [
    "C55_status_partial",
    "C55_status_start",
    "C55_status_kept",
    "C55_status_refuted",
    "C55_errors",
    "C55_fc_safe",
    "C55_fc_go",
    "C55_fc_exact_partial",
    "C55_fc_rx",
    "C55_fc_diff",
    "C55_fc_wrap_refuted",
    "C55_fc_consumed_refuted",
    "C55_mgmt",
    "C55_mgmt_all",
    "C55_mgmt_write",
    "C55_mgmt_address",
    "C55_mgmt_dead_refuted"
   ],
   "note": "False of the code: two of four bits of cfg_function_status (C55_status_refuted), credits wrap at the signal width (C55_fc_wrap_refuted), UltraScale+ selection 2 raises (C55_fc_consumed_refuted), accesses to missing functions end the coroutine (C55_mgmt_dead_refuted). Proved: all other status fields, credits shown safe and sufficient, exact when they fit, every other management access done once with the host's effect, errors in order."
  },
  {
   "property": "C56",
   "status": "partial",
   "theorems": [
    "C56_message",
    "C56_message_start",
    "C56_message_kept",
    "C56_us_all",
    "C56_us_runs",
    "C56_us_once_partial",
    "C56_us_outputs_partial",
    "C56_us_pending",
    "C56_us_once_refuted",
    "C56_us_dead_refuted",
    "C56_usp_enable_refuted",
    "C56_s10_all",
    "C56_s10_runs",
    "C56_s10_dead_refuted"
   ],
   "note": "Requests the host allows: one message each with the host's address and data, acknowledged once; every run decomposed, both directions. False of the code and refuted: failed requests are not answered, an MSI together with an MSI-X may be acknowledged for several cycles, UltraScale+ shows MSI enable and counts of two functions only."
  },
  {
   "property": "C57",
   "status": "partial",
   "theorems": [
    "C57_runs",
    "C57_decode",
    "C57_upstream_partial",
    "C57_count",
    "C57_busmaster",
    "C57_frame",
    "C57_upstream_refuted",
    "C57_count_refuted",
    "C57_readrq_partial",
    "C57_mps_partial",
    "C57_tags_partial",
    "C57_crs",
    "C57_serr",
    "C57_status_refuted"
   ],
   "note": "Proved for all trees and histories: enabled functions and bridges above decode, counts and bus master bits, frame, exact field updates with read back. False of the code and refuted: a bridge enabled by itself does not become bus master (un-awaited set_master, C57_upstream_refuted), negative counts (C57_count_refuted), device status error bits are cleared (C57_status_refuted)."
  },
  {
   "property": "C58",
   "status": "partial",
   "theorems": [
    "C58_settings",
    "C58_completes_partial",
    "C58_completes_refuted",
    "C58_bandwidth_partial",
    "C58_bandwidth_refuted",
    "C58_clock_partial",
    "C58_clock_refuted",
    "C58_straddle_partial",
    "C58_straddle_refuted",
    "C58_connect",
    "C58_negotiate",
    "C58_connected",
    "C58_model_link",
    "C58_latency",
    "C58_status_refuted"
   ],
   "note": "Code false of the full statement: P-tile selection, clock rounding and bandwidth, UltraScale+ straddle checks at 256 bits, link status register (refutations beside). The rest is proved for all inputs. Floats are modelled as exact rationals."
  },
  {
   "property": "C59",
   "status": "partial",
   "theorems": [
    "C59_numbers",
    "C59_ids",
    "C59_address_partial",
    "C59_high_refuted",
    "C59_large_refuted",
    "C59_rom_refuted"
   ],
   "note": "Proved for all trees, numbers and TLPs of configuration and completion type; for memory and I/O requests where every BAR is below 4 GiB in size and, for addresses above 4 GiB, no 32-bit BAR is in the tree. In those cases, and for expansion ROMs, the code is false of the statement: C59_high_refuted, C59_large_refuted, C59_rom_refuted."
  },
  {
   "property": "C60",
   "status": "partial",
   "theorems": [
    "C60_paths",
    "C60_ids",
    "C60_address_partial",
    "C60_sibling_refuted"
   ],
   "note": "Completions in full; requests with the restrictions of C59 and for trees in which bridges have no BARs and share buses only with bridges. Refuted: functions of one device reach each other."
  },
  {
   "property": "C61",
   "status": "partial",
   "theorems": [
    "C61_read_partial",
    "C61_write_partial",
    "C61_io_read_partial",
    "C61_io_write_partial",
    "C61_host_read_partial",
    "C61_host_write_partial",
    "C61_host_io_read_partial",
    "C61_host_io_write_partial",
    "C61_sibling_refuted"
   ],
   "note": "Proved for trees set up by the model of enumeration and assignment, under the conditions of C59 and C60 on bases, BARs and addresses. False of the code between functions of one device (C61_sibling_refuted)."
  },
  {
   "property": "C62",
   "status": "partial",
   "theorems": [
    "C62_read",
    "C62_write_partial",
    "C62_absent",
    "C62_present"
   ],
   "note": "Proved for reads, for numbers without a function, and for all writes except those to the bus numbers of bridges and the bits for which the registers are wrong (C23). Holds in every tree with the numbers that the host has given, so for any sequence of such accesses."
  },
  {
   "property": "C63",
   "status": "partial",
   "theorems": [
    "C63_goes",
    "C63_nobody",
    "C63_agrees",
    "C63_keeps",
    "C63_id",
    "C63_header",
    "C63_buses"
   ],
   "note": "Proved for all trees, bus numbers and accesses. Missing: the number 0:0.0 of the host bridge, and trees in which a bridge with buses has not been told its own number (which enumeration does not leave)."
  },
  {
   "property": "C64",
   "status": "partial",
   "theorems": [
    "C64_enumerates_partial",
    "C64_setup_partial"
   ],
   "note": "Refinement of the abstract enumeration (C32 to C34) for every tree whose registers are told by the abstract one; partial: well formed capability lists and BAR layouts, header types 0 and 1, no waiting for CRS."
  },
  {
   "property": "C65",
   "status": "partial",
   "theorems": [
    "C65_assigns_partial",
    "C65_ids_partial",
    "C65_address_partial"
   ],
   "note": "For every enumerated tree: the writes reach the functions they are for, the registers and windows are those of the computed assignment, and C59 holds of the result. That the tree is as enumeration leaves it is a hypothesis here (enumerated_net); C66 proves it for the tree that the scan leaves. Partial: sizes below 4 GiB as in C59; nothing is said of the state after an exception."
  },
  {
   "property": "C66",
   "status": "partial",
   "theorems": [
    "C66_numbers",
    "C66_enumerate_partial"
   ],
   "note": "The scan (C66_numbers) in full for all trees whose registers are told by an abstract one; the addresses under the conditions of C59 (BARs below 4 GiB, no 32-bit BAR for addresses above 4 GiB; otherwise false of the code). Registers as in C64: well formed capability lists and BAR layouts, header types 0 and 1, no waiting for CRS."
  },
  {
   "property": "C67",
   "status": "partial",
   "theorems": [
    "C67_tree",
    "C67_paths",
    "C67_ids",
    "C67_address_partial",
    "C67_read_partial",
    "C67_write_partial",
    "C67_io_read_partial",
    "C67_io_write_partial",
    "C67_host_read_partial",
    "C67_host_write_partial",
    "C67_host_io_read_partial",
    "C67_host_io_write_partial",
    "C67_config_read",
    "C67_config_write_partial",
    "C67_config_absent",
    "C67_room"
   ],
   "note": "C60, C61 and C62 for the tree that the configuration requests of enumerate leave (C67_tree: it exists; C67_room: always, if the BARs, ROMs and bridge granules fit). Partial under the conditions of these: tidy trees (false otherwise, C61_sibling_refuted, C60_sibling_refuted), aligned and separate ranges, BAR addresses below 4 GiB where the code decodes wrongly, the registers excepted in C62."
  },
  {
   "property": "C68",
   "status": "partial",
   "theorems": [
    "C68_s10_safe",
    "C68_s10_go",
    "C68_s10_exact_partial",
    "C68_s10_wrap_refuted",
    "C68_ptile_pools",
    "C68_ptile_safe",
    "C68_ptile_go",
    "C68_ptile_blocked",
    "C68_ptile_unlimited",
    "C68_ptile_unlimited_refuted"
   ],
   "note": "Credits shown stay free until the user logic uses them, at any later time, and suffice for sending; P-Tile exactly. Partial: Stratix 10 shows the credits modulo the width of its signals (C68_s10_wrap_refuted), and P-Tile shows unlimited credits as a limit of 0 (C68_ptile_unlimited_refuted)."
  },
  {
   "property": "C69",
   "status": "partial",
   "theorems": [
    "C69_wait",
    "C69_probe",
    "C69_invisible",
    "C69_function_refuted",
    "C69_write_blind",
    "C69_write_refuted"
   ],
   "note": "wait_crs and the search for a device in scan, for any function that answers with CRS until some time. Partial: functions other than 0 are not waited for (C69_function_refuted), and configuration writes refused with CRS are lost without notice (C69_write_refuted)."
  },
  {
   "property": "C70",
   "status": "partial",
   "theorems": [
    "C70_clocked",
    "C70_low",
    "C70_falls",
    "C70_released",
    "C70_length_partial",
    "C70_length_refuted",
    "C70_start_refuted",
    "C70_config",
    "C70_config_refuted"
   ],
   "note": "C70_length_partial needs a clock edge in every low pulse of the reset input; without that the claim is refuted (C70_length_refuted). The claims about asserting and releasing are proved in full; the outputs start low (C70_start_refuted), and before the first clock edge config_space_enable does not depend on the reset input (C70_config_refuted)."
  },
  {
   "property": "C71",
   "status": "partial",
   "theorems": [
    "C71_count_partial",
    "C71_kept",
    "C71_limit_partial",
    "C71_served_partial",
    "C71_limit_refuted",
    "C71_clear_refuted",
    "C71_sink_partial",
    "C71_sink_ready",
    "C71_sink_refuted",
    "C71_sink_unpaused",
    "C71_sink_paused",
    "C71_intel_partial",
    "C71_intel_refuted"
   ],
   "note": "C71_count_partial and C71_served_partial need that clear is not called (refuted otherwise: C71_clear_refuted); C71_limit_partial allows one frame above the limit (refuted without: C71_limit_refuted) and is about sources; C71_sink_partial and C71_intel_partial have the bounds for sinks, two words above the limit and one more for each cycle of the ready latency, which are reached (C71_sink_refuted, C71_intel_refuted); C71_sink_unpaused and C71_sink_paused are about the UltraScale sinks, whose pause the user may change at any time, not about the Intel sinks."
  },
  {
   "property": "C72",
   "status": "partial",
   "theorems": [
    "C72_wait_partial",
    "C72_ends_partial",
    "C72_idle_partial",
    "C72_paused",
    "C72_wait_refuted",
    "C72_idle_refuted",
    "C72_reset_refuted",
    "C72_clear_refuted",
    "C72_sink_wait",
    "C72_sink_idle_partial",
    "C72_sink_idle_refuted"
   ],
   "note": "The sources and sinks of the UltraScale, S10 and P-Tile streams. Partial: wait() of a source needs that no edge comes between send() and the next turn of _run (C72_wait_refuted) and that clear() is not called while a frame is under way (C72_clear_refuted), idle() of a source is wrong between send() and the next edge (C72_idle_refuted), idle() of a sink is wrong with straddled frames (C72_sink_idle_refuted)."
  },
  {
   "property": "C73",
   "status": "proved",
   "theorems": [
    "C73_follows",
    "C73_ended",
    "C73_cleared",
    "C73_wakes",
    "C73_clear_refuted"
   ],
   "note": "All generators and numbers of edges. C73_clear_refuted is a finding outside the statement: clearing a generator does not lift the pause."
  }
 ]
}