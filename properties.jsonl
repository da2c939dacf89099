{"id": "C01", "title": "TLP wire round trip", "statement": "Packing a TLP of a memory, IO, configuration, atomic or completion type whose fields fit their wire widths and unpacking the resulting bytes yields a TLP equal to the original (all fields the wire carries, including TH, and the payload); a TLP of any other type is rejected with an exception instead of being encoded wrongly.", "quantifier": "for every supported fmt/type, every value of every header field in its width and every payload", "why_tests_cant": "the header has over 60 bits of independent content per type and fields that are split over non-adjacent bits; tests only sample a few headers", "anchors": ["cocotbext/pcie/core/tlp.py: Tlp.pack_header, Tlp.pack, Tlp.unpack_header, Tlp.unpack, Tlp.__eq__"]}
{"id": "C02", "title": "TLP decoding is canonical", "statement": "Whenever unpacking accepts a byte string, packing the decoded TLP again succeeds and reproduces the same bytes, except for bits the decoder documents as ignored (reserved header bits); two different TLPs never pack to the same bytes.", "quantifier": "for every byte string and every pair of packable TLPs", "why_tests_cant": "statement about all byte strings", "anchors": ["cocotbext/pcie/core/tlp.py: Tlp.pack, Tlp.unpack"]}
{"id": "C03", "title": "DLLP round trip with CRC", "statement": "Packing any supported DLLP (with or without CRC) and unpacking it yields an equal DLLP; unpacking the CRC form of a packed DLLP never raises.", "quantifier": "for every DLLP type that pack supports and all field values (12 bit sequence numbers, VC, header and data credit fields and scales)", "why_tests_cant": "2^24 payloads per type", "anchors": ["cocotbext/pcie/core/dllp.py: Dllp.pack, Dllp.pack_crc, Dllp.unpack, Dllp.unpack_crc, crc16"]}
{"id": "C04", "title": "DLLP corruption is detected", "statement": "If a DLLP with CRC is corrupted on the wire by any error of one to four bits or any error burst of at most 16 bits, or has a wrong length, unpacking with CRC check fails instead of returning a DLLP. (An earlier version of this property also claimed every odd number of bit errors; that is false of the PCIe CRC polynomial and is refuted.)", "quantifier": "for every packed DLLP and every error pattern in these classes", "why_tests_cant": "the number of (DLLP, error) pairs is astronomically large; needs linearity of the CRC", "anchors": ["cocotbext/pcie/core/dllp.py: crc16, Dllp.unpack_crc"]}
{"id": "C05", "title": "Byte enables describe exactly the requested bytes", "statement": "After set_addr_be(addr, length) the set of byte addresses described by (address, length, first BE, last BE) is exactly [addr, addr+length) for length >= 1, the DW length is minimal, and the byte-count and first-offset getters return length and addr mod 4; for length 0 no byte is enabled and the request is one DW long.", "quantifier": "for every address and every length that fits a TLP", "why_tests_cant": "all (addr mod 4, length) combinations up to 4 KiB, interaction of four helper functions", "anchors": ["cocotbext/pcie/core/tlp.py: Tlp.set_addr_be, Tlp.get_first_be_offset, Tlp.get_last_be_offset, Tlp.get_be_byte_count"]}
{"id": "C06", "title": "Write payload lines up with byte enables", "statement": "After set_addr_be_data(addr, data) the payload is a whole number of DWs equal to the DW length field, byte i of the payload corresponds to address (addr & ~3)+i, the enabled payload bytes are exactly data in order.", "quantifier": "for every address and byte string that fits a TLP", "why_tests_cant": "unbounded data", "anchors": ["cocotbext/pcie/core/tlp.py: Tlp.set_addr_be_data"]}
{"id": "C07", "title": "Lower address of a completion points at the first requested byte", "statement": "get_lower_address of a read request returns the low 7 bits of the byte address of the first enabled byte.", "quantifier": "for every address and every byte-enable pattern produced by set_addr_be", "why_tests_cant": "needs all residues; the tests only use aligned reads here", "anchors": ["cocotbext/pcie/core/tlp.py: Tlp.get_lower_address"]}
{"id": "C08", "title": "TLP validation accepts legal and rejects illegal packets", "statement": "Tlp.check() returns true exactly if the TLP obeys the length/payload, 4 KiB boundary, IO/configuration length and byte enable, completion byte count and reserved length rules it documents.", "quantifier": "for every TLP of a known type", "why_tests_cant": "tests only build legal TLPs", "anchors": ["cocotbext/pcie/core/tlp.py: Tlp.check"]}
{"id": "C09", "title": "Write requests cover the data exactly once", "statement": "Writing a byte string through a memory window produces a sequence of memory write TLPs such that each byte of the string is transferred exactly once to its own address in ascending order, no TLP crosses a 4 KiB boundary or exceeds the max payload size, the 64-bit format is used exactly for addresses above 4 GiB, and every TLP passes validation.", "quantifier": "for every address, byte string and max payload setting", "why_tests_cant": "unbounded lengths and alignments", "anchors": ["cocotbext/pcie/core/region.py: MemoryTlpRegion._write", "cocotbext/pcie/core/rc.py: RootComplex", "cocotbext/pcie/core/function.py: Function"]}
{"id": "C10", "title": "Read requests cover the range exactly once", "statement": "Reading n bytes through a memory window produces read TLPs covering [addr, addr+n) exactly once in ascending order, none crosses 4 KiB or exceeds the max read request size.", "quantifier": "for every address, length and max read request size", "why_tests_cant": "unbounded lengths and alignments", "anchors": ["cocotbext/pcie/core/region.py: MemoryTlpRegion._read"]}
{"id": "C11", "title": "Completions of a memory read reassemble to the requested bytes", "statement": "For a memory read request the completer's completions carry, in order, exactly the bytes of the requested range, their byte count fields count down to the last one, every split is at a read completion boundary, no completion exceeds the max payload size, tag and requester id are copied from the request.", "quantifier": "for every memory content, address, length, byte enables, RCB and max payload setting", "why_tests_cant": "all splittings", "anchors": ["cocotbext/pcie/core/endpoint.py: MemoryEndpoint.handle_mem_read_tlp", "cocotbext/pcie/core/rc.py: RootComplex.handle_mem_read_tlp"]}
{"id": "C12", "title": "End-to-end memory read returns memory contents", "statement": "A read of n bytes at addr through the requester, answered by the completer, returns exactly the n bytes of the target memory; any non-SC status raises an exception and never returns data.", "quantifier": "for every memory content, address, length, RCB, payload and request size setting", "why_tests_cant": "composition of request splitting, byte enables, completion splitting and reassembly", "anchors": ["cocotbext/pcie/core/region.py: MemoryTlpRegion._read", "cocotbext/pcie/core/endpoint.py: MemoryEndpoint.handle_mem_read_tlp", "cocotbext/pcie/core/rc.py: RootComplex.handle_mem_read_tlp"]}
{"id": "C13", "title": "End-to-end memory write changes exactly the addressed bytes", "statement": "After a write of a byte string at addr the target memory equals the old memory with exactly the bytes [addr, addr+n) replaced.", "quantifier": "for every memory content, address, data and max payload setting", "why_tests_cant": "composition; must also say what does not change", "anchors": ["cocotbext/pcie/core/region.py: MemoryTlpRegion._write", "cocotbext/pcie/core/endpoint.py: MemoryEndpoint.handle_mem_write_tlp", "cocotbext/pcie/core/rc.py: RootComplex.handle_mem_write_tlp"]}
{"id": "C14", "title": "Byte-enable masked writes touch only enabled bytes", "statement": "A completer processing a memory or IO write TLP with arbitrary (also non-contiguous) byte enables updates exactly the enabled bytes with the corresponding payload bytes.", "quantifier": "for every payload, length and first/last byte enable combination", "why_tests_cant": "16x16 byte enables times unbounded lengths", "anchors": ["cocotbext/pcie/core/endpoint.py: MemoryEndpoint.handle_mem_write_tlp, handle_io_write_tlp", "cocotbext/pcie/core/rc.py: RootComplex.handle_mem_write_tlp, handle_io_write_tlp"]}
{"id": "C15", "title": "Flow control never overruns the receiver", "statement": "On a link the credits a transmitter has consumed and that the receiver has not freed never exceed the receiver's advertised buffer, for headers and for data, in every traffic class of flow control, although counters wrap modulo 2^8/2^12 or their scaled widths.", "quantifier": "for every schedule of sends, deliveries, releases, update DLLP emissions and deliveries", "why_tests_cant": "depends on the whole history and on counter wrap-around after thousands of TLPs", "anchors": ["cocotbext/pcie/core/port.py: FcStateData, FcChannelState, Port._run_transmit, Port.ext_recv, Port.handle_dllp"]}
{"id": "C16", "title": "Flow control returns every credit exactly once", "statement": "Releasing a received TLP returns exactly the credits it consumed and a second release of the same TLP has no effect; once all TLPs are released and updates delivered, the transmitter again has the full advertised credit (no leak, no duplication).", "quantifier": "for every history", "why_tests_cant": "leaks only show in long histories", "anchors": ["cocotbext/pcie/core/port.py: FcChannelState, Port.ext_recv", "cocotbext/pcie/core/tlp.py: Tlp.release_fc"]}
{"id": "C17", "title": "The data link layer delivers TLPs in order exactly once", "statement": "TLPs handed to a port are delivered to the peer's transaction layer in the order of transmission, each exactly once, also across sequence number wrap-around.", "quantifier": "for every sequence of sends and every interleaving of TLP, ACK and flow control traffic", "why_tests_cant": "unbounded sequences, 12-bit wrap", "anchors": ["cocotbext/pcie/core/port.py: Port._run_transmit, Port.ext_recv, Port.handle_dllp"]}
{"id": "C18", "title": "Retry buffer holds exactly the unacknowledged TLPs", "statement": "An ACK purges exactly the TLPs it covers; the retry buffer is always the list of transmitted TLPs not yet acknowledged.", "quantifier": "for every schedule", "why_tests_cant": "history property", "anchors": ["cocotbext/pcie/core/port.py: Port.handle_dllp, Port._run_transmit"]}
{"id": "C19", "title": "Tags are unique among outstanding requests", "statement": "alloc_tag never returns a tag that belongs to a request that is still outstanding, tags are below the configured count, and a completion is delivered to the request with its tag and only to it.", "quantifier": "for every sequence of allocations, completions, releases and timeouts", "why_tests_cant": "history property", "anchors": ["cocotbext/pcie/core/function.py: Function.alloc_tag, release_tag, recv_cpl, perform_nonposted_operation", "cocotbext/pcie/core/rc.py: RootComplex.alloc_tag, release_tag, recv_cpl, perform_nonposted_operation"]}
{"id": "C20", "title": "A late completion is never attributed to another request", "statement": "If a request times out and its tag is reused, a completion of the first request that arrives later is not returned as the result of the second request.", "quantifier": "for every timing", "why_tests_cant": "race that tests do not provoke", "anchors": ["cocotbext/pcie/core/function.py: Function.perform_nonposted_operation", "cocotbext/pcie/core/rc.py: RootComplex.perform_nonposted_operation"]}
{"id": "C21", "title": "BAR decoding", "statement": "A function claims a memory or IO address exactly if it lies in the window [base, base+size) of one of its BARs of that kind, and reports the offset address-base; windows of BARs that do not overlap are never confused.", "quantifier": "for every BAR configuration (kind, 32/64 bit, prefetchable, size), base and address", "why_tests_cant": "all sizes, bases, addresses", "anchors": ["cocotbext/pcie/core/function.py: Function.configure_bar, match_bar, match_tlp"]}
{"id": "C22", "title": "BAR sizing protocol", "statement": "Writing all ones to a BAR and reading it back yields the size mask and the type bits, after which any aligned base can be written and read back unchanged; type bits never change; the host's probe leaves the BAR contents as they were.", "quantifier": "for every BAR configuration and every previous content", "why_tests_cant": "all configurations", "anchors": ["cocotbext/pcie/core/function.py: Function.configure_bar, read_config_register, write_config_register", "cocotbext/pcie/core/pci.py: PciDevice.read_bars"]}
{"id": "C23", "title": "Configuration space write semantics", "statement": "A configuration write with any byte enables changes only writable bits in enabled bytes: writable fields take the written value, write-1-to-clear status bits are cleared exactly where a 1 is written, read-only fields and all other registers keep their value.", "quantifier": "for every register number, data, byte enables and prior state", "why_tests_cant": "per-register bit-level contract over 2^32 data values and 16 masks", "anchors": ["cocotbext/pcie/core/function.py: Function.read_config_register, write_config_register", "cocotbext/pcie/core/endpoint.py: Endpoint.read_config_register, write_config_register", "cocotbext/pcie/core/bridge.py: Bridge.read_config_register, write_config_register"]}
{"id": "C24", "title": "Host configuration access is byte exact", "statement": "A configuration write of any byte string at any offset by the host changes exactly these configuration bytes (as far as writable) and a configuration read returns the bytes at that offset.", "quantifier": "for every offset and length within the configuration space", "why_tests_cant": "splitting into DW accesses with byte enables", "anchors": ["cocotbext/pcie/core/rc.py: RootComplex.config_read, config_write", "cocotbext/pcie/core/function.py: Function.handle_config_0_read_tlp, handle_config_0_write_tlp"]}
{"id": "C25", "title": "Capability list is consistent", "statement": "Following the next pointers from the capabilities pointer visits exactly the registered capabilities in ascending order of offset and terminates; the register ranges of any two registered capabilities are disjoint; a read of a register in a capability's range is answered by that capability.", "quantifier": "for every sequence of register/deregister calls", "why_tests_cant": "history property", "anchors": ["cocotbext/pcie/core/caps/common.py: PciCapList, PciExtCapList", "cocotbext/pcie/core/function.py: Function.register_capability"]}
{"id": "C26", "title": "PCIe capability registers", "statement": "Control registers of the PCI Express capability read back what was written to enabled bytes, status bits are write-1-to-clear, capability registers are read-only and report the configured fields at the positions the PCIe specification gives.", "quantifier": "for every register, data, byte enables and prior state", "why_tests_cant": "bit level contract", "anchors": ["cocotbext/pcie/core/caps/pcie.py: PcieCapability"]}
{"id": "C27", "title": "AER and PM capability registers", "statement": "Error status bits of the AER capability are write-1-to-clear, mask/severity/control bits read/write, log registers read only; PM control/status likewise.", "quantifier": "for every register, data, byte enables and prior state", "why_tests_cant": "bit level contract", "anchors": ["cocotbext/pcie/core/caps/aer.py: AerExtendedCapability", "cocotbext/pcie/core/caps/pm.py: PmCapability"]}
{"id": "C28", "title": "MSI interrupts reach their own vector", "statement": "When the host allocates MSI or MSI-X vectors for functions and a function signals its k-th vector, exactly the event of that vector fires and no event of another function.", "quantifier": "for every sequence of allocations and every vector number", "why_tests_cant": "depends on the allocation history", "anchors": ["cocotbext/pcie/core/msi.py: MsiRegion.alloc_vectors", "cocotbext/pcie/core/caps/msi.py: MsiCapability.issue_msi_interrupt, MsixCapability.issue_msix_interrupt", "cocotbext/pcie/core/pci.py: PciDevice.alloc_irq_vectors, _msi_init, _msix_init"]}
{"id": "C29", "title": "Bridge forwarding windows", "statement": "A bridge forwards downstream exactly the TLPs whose address lies in one of its windows or whose target bus lies in [secondary, subordinate], converts type 1 configuration requests for the secondary bus to type 0, answers what it cannot route with UR if and only if it is non-posted, and never forwards a TLP twice.", "quantifier": "for every bridge configuration and TLP", "why_tests_cant": "all windows and TLP kinds", "anchors": ["cocotbext/pcie/core/bridge.py: Bridge.match_tlp_secondary, upstream_recv, downstream_recv"]}
{"id": "C30", "title": "Switch and device routing deliver to exactly one target", "statement": "A TLP entering a switch or multi-function device is handed to exactly one port/function or is answered once with UR / dropped with its credits released.", "quantifier": "for every topology size and TLP", "why_tests_cant": "all port counts", "anchors": ["cocotbext/pcie/core/switch.py: Switch routing", "cocotbext/pcie/core/device.py: Device.upstream_recv"]}
{"id": "C31", "title": "Function and device numbers are unique", "statement": "Functions added to a device get distinct function numbers 0..7 and ports of a switch distinct device numbers 0..31; the lowest free number is used; when all are in use the addition fails.", "quantifier": "for every sequence of additions", "why_tests_cant": "history property", "anchors": ["cocotbext/pcie/core/device.py: Device.add_function, next_free_function_number", "cocotbext/pcie/core/switch.py: Switch.make_port"]}
{"id": "C32", "title": "Enumeration assigns nested, disjoint bus ranges", "statement": "After enumeration every bridge's [secondary, subordinate] range contains exactly the buses below it, ranges of siblings are disjoint, bus numbers are unique and every device is found exactly once.", "quantifier": "for every bus topology with at most 255 buses", "why_tests_cant": "all trees", "anchors": ["cocotbext/pcie/core/pci.py: PciBus.scan, scan_bridge"]}
{"id": "C33", "title": "Address assignment is aligned, disjoint and contained", "statement": "After resource assignment every BAR has a naturally aligned base, all BAR windows of a resource kind are pairwise disjoint, and the windows of the bridges contain the BARs of all functions below them.", "quantifier": "for every bus topology and every set of BAR sizes", "why_tests_cant": "all trees and sizes", "anchors": ["cocotbext/pcie/core/pci.py: PciBus.assign_resources, PciDevice.assign_bars, setup_bridge", "cocotbext/pcie/core/utils.py: align"]}
{"id": "C34", "title": "Max payload size configuration is consistent", "statement": "After enumeration all functions in a hierarchy use a max payload size no larger than any of them supports.", "quantifier": "for every topology and set of supported sizes", "why_tests_cant": "all trees", "anchors": ["cocotbext/pcie/core/pci.py: PciDevice.configure_mps"]}
{"id": "C35", "title": "Bit utilities", "statement": "align rounds up to the next multiple of 2^k and is the identity on multiples; byte_mask_update replaces exactly the bytes selected by the mask (restricted to the bitmask); PcieId converts to and from its 16-bit form without loss and rejects out-of-range components.", "quantifier": "for every integer argument", "why_tests_cant": "unbounded integers", "anchors": ["cocotbext/pcie/core/utils.py: align, byte_mask_update, PcieId"]}
{"id": "C36", "title": "UltraScale descriptor round trip", "statement": "For each of the CQ, CC, RQ and RC interfaces unpacking the packed descriptor yields a TLP equal to the original in all fields that interface carries; a corrupted parity bit is detected when parity checking is on.", "quantifier": "for every TLP of the types the interface supports", "why_tests_cant": "bit-level codec over all fields", "anchors": ["cocotbext/pcie/xilinx/us/tlp.py: Tlp_us.pack_us_cq, unpack_us_cq, pack_us_cc, unpack_us_cc, pack_us_rq, unpack_us_rq, pack_us_rc, unpack_us_rc"]}
{"id": "C37", "title": "UltraScale streaming preserves frames", "statement": "Frames sent over an AXI stream source are received by the matching sink in order and unchanged, for every interface width and straddling mode and every pattern of queue arrivals.", "quantifier": "for every sequence of frames, width, segment count and arrival pattern", "why_tests_cant": "unbounded frame sequences with all straddle positions", "anchors": ["cocotbext/pcie/xilinx/us/interface.py: RqSource, RqSink, RcSource, RcSink, CqSource, CqSink, CcSource, CcSink"]}
{"id": "C38", "title": "Intel streaming preserves TLPs", "statement": "A TLP converted to a Stratix 10 H-tile or P-tile frame, streamed in segments and converted back equals the original; frames keep order and metadata.", "quantifier": "for every sequence of TLPs, width and segment count", "why_tests_cant": "unbounded sequences", "anchors": ["cocotbext/pcie/intel/s10/interface.py: S10PcieFrame, S10PcieSource, S10PcieSink", "cocotbext/pcie/intel/ptile/interface.py: PTilePcieFrame, PTilePcieSource, PTilePcieSink"]}
{"id": "C39", "title": "Parity protection", "statement": "dword_parity computes per byte parity; flipping any single bit of a data word or parity word is detected.", "quantifier": "for every 32-bit word and bit position", "why_tests_cant": "2^32 words", "anchors": ["cocotbext/pcie/xilinx/us/interface.py: dword_parity, UsPcieFrame.check_parity", "cocotbext/pcie/intel/ptile/interface.py: parity"]}
{"id": "C40", "title": "Word access helpers", "statement": "Reading words from a memory or IO window after writing words with the same byte order and word size returns the written values; byte order and element size decide exactly which byte of memory holds which byte of the word.", "quantifier": "for every list of words, word size, byte order and address", "why_tests_cant": "unbounded lists", "anchors": ["cocotbext/pcie/core/function.py: Function.mem_write_words, mem_read_words", "cocotbext/pcie/core/rc.py: RootComplex.mem_write_words, mem_read_words"]}
{"id": "C41", "title": "TLP sizes, credits and flow control class", "statement": "The size getters of a TLP equal the length of its packed form (plus 8 bytes of framing for the wire size), the data credits are the payload in units of 16 bytes rounded up, has_data and the header size agree with the type, and the flow control class is the one the PCIe specification assigns to the fmt and type fields.", "quantifier": "for every TLP of a supported type", "why_tests_cant": "all types and payload lengths", "anchors": ["cocotbext/pcie/core/tlp.py: Tlp.get_size, get_wire_size, get_data_credits, get_fc_type, has_data, get_header_size"]}
{"id": "C42", "title": "IO accesses", "statement": "An IO read of n bytes at addr issues one-DWORD requests covering [addr, addr+n) exactly once and returns exactly the n bytes of the target; an IO write issues one-DWORD requests covering the data exactly once, is acknowledged for every request and changes exactly the addressed bytes.", "quantifier": "for every address, length, data and memory content", "why_tests_cant": "unbounded addresses, lengths and data", "anchors": ["cocotbext/pcie/core/region.py: IoTlpRegion.read, IoTlpRegion.write", "cocotbext/pcie/core/endpoint.py: MemoryEndpoint.handle_io_read_tlp, handle_io_write_tlp", "cocotbext/pcie/core/rc.py: RootComplex.handle_io_read_tlp, handle_io_write_tlp"]}
{"id": "C43", "title": "MSI and MSI-X register semantics", "statement": "A write with any byte enables to a register of the MSI or MSI-X capability changes exactly the writable bits in enabled bytes, for every combination of 64-bit, per-vector mask and extended message data capability, and the registers show the fields at the positions of the specification.", "quantifier": "for every capability configuration, register, data, byte enables and prior state", "why_tests_cant": "bit-level contract over all data values, masks and configurations", "anchors": ["cocotbext/pcie/core/caps/msi.py: MsiCapability, MsixCapability"]}
{"id": "C44", "title": "Error status bits", "statement": "Receiving or sending a TLP sets exactly the status bits of the specification: received target/master abort for completions with status CA/UR on the side they arrive, signaled target abort for completions with status CA on the side they leave, master data parity error for poisoned TLPs if enabled on that side; nothing else in the function changes.", "quantifier": "for every function or bridge state and TLP", "why_tests_cant": "all combinations of TLP kind, status, poisoning, enables and windows", "anchors": ["cocotbext/pcie/core/bridge.py: Bridge.upstream_recv, downstream_recv, send", "cocotbext/pcie/core/function.py: Function.upstream_recv, send"]}
{"id": "C45", "title": "UltraScale requester tags", "statement": "At any time the outstanding non-posted requests of the device have pairwise different tags; tags chosen by the core are in the range in force when the request is sent, and the user is shown exactly these tags, once each and in the order of the requests.", "quantifier": "for every sequence of frames, completions, configuration changes and every schedule of the coroutines", "why_tests_cant": "tag reuse depends on unbounded histories of requests and completions and on scheduling", "anchors": ["cocotbext/pcie/xilinx/us/us_model.py: get_free_tag, _run_rq_logic, _run_rq_np_queue_logic, _run_rq_tag_logic, upstream_recv", "cocotbext/pcie/xilinx/us/usp_model.py: get_free_tag, _run_rq_logic, _run_rq_np_queue_logic, _run_rq_tag_logic, upstream_recv"]}
{"id": "C46", "title": "UltraScale requester completions", "statement": "Every completion for a function of the device is given to the user with the error code, the 12-bit address and the request-completed flag that the outstanding requests at its arrival imply; for a completer that answers correctly all codes are normal termination, the addresses are those of the payload bytes and exactly the last completion ends the request.", "quantifier": "for every completion and every history of requests, every read request and every correct split", "why_tests_cant": "all combinations of outstanding requests, header fields and splits", "anchors": ["cocotbext/pcie/xilinx/us/us_model.py: upstream_recv, _run_rc_logic", "cocotbext/pcie/xilinx/us/usp_model.py: upstream_recv, _run_rc_logic"]}
{"id": "C47", "title": "UltraScale completer requests", "statement": "The requests given to the CQ stream are exactly those that arrived; only posted requests may pass others, and a non-posted request never passes a posted one; no more non-posted requests are given than the user has made room for; if the user keeps making room everything is given.", "quantifier": "for every sequence of requests, every schedule and every pattern of pcie_cq_np_req", "why_tests_cant": "unbounded sequences and interleavings of requests with grants", "anchors": ["cocotbext/pcie/xilinx/us/us_model.py: _run_cq_logic", "cocotbext/pcie/xilinx/us/usp_model.py: _run_cq_logic"]}
{"id": "C48", "title": "UltraScale routing of received TLPs", "statement": "A memory or IO request is given to the user with the number and the aperture of the BAR that contains its address and the id of its function; unclaimed requests are answered as unsupported, unclaimed memory writes discarded; type 0 configuration requests go to the function they name and set the bus number of all functions (or are answered with CRS before configuration space is enabled); completions are accepted exactly for the ids of the functions.", "quantifier": "for every TLP of these types, every number of functions and every BAR layout", "why_tests_cant": "all addresses, layouts and numbers of functions", "anchors": ["cocotbext/pcie/xilinx/us/us_model.py: upstream_recv", "cocotbext/pcie/xilinx/us/usp_model.py: upstream_recv"]}
{"id": "C49", "title": "UltraScale receive buffer", "statement": "The header and data counters of the receive buffer equal its content and never exceed the capacity; completions leave in the order of arrival; a completion of an outstanding request is never lost for lack of space, or else the user is told.", "quantifier": "for every sequence of frames and completions and every schedule", "why_tests_cant": "unbounded histories; losses only occur in particular interleavings", "anchors": ["cocotbext/pcie/xilinx/us/us_model.py: upstream_recv, _run_rc_logic, _run_cfg_status_logic", "cocotbext/pcie/xilinx/us/usp_model.py: upstream_recv, _run_rc_logic, _run_cfg_status_logic"]}
{"id": "C50", "title": "UltraScale requester forwarding", "statement": "Every request accepted from the RQ stream is sent exactly once, unchanged except for a core-assigned tag (or discarded without bus mastering); requests of each kind are sent in the order of acceptance; every sequence number is reported once, after its request was sent; a request waits only while credits or tags are taken by outstanding requests.", "quantifier": "for every sequence of frames, completions, configuration changes and every schedule", "why_tests_cant": "unbounded histories and interleavings", "anchors": ["cocotbext/pcie/xilinx/us/us_model.py: _run_rq_logic, _run_rq_np_queue_logic, _run_rq_seq_num_logic, upstream_recv", "cocotbext/pcie/xilinx/us/usp_model.py: _run_rq_logic, _run_rq_np_queue_logic, _run_rq_seq_num_logic, upstream_recv"]}
{"id": "C51", "title": "Capabilities as the host finds them", "statement": "After any sequence of registrations the host's capability walk ends and finds exactly the registered capabilities and extended capabilities, with their identifiers and addresses, in order; a lookup gives the address of the registered capability with that identifier or nothing if there is none; capability reads and writes address exactly the registers of that capability; PCI Express functions are recognised with their port type and supported payload size.", "quantifier": "for every kind of function, every sequence of (de)registrations and configuration writes, every access", "why_tests_cant": "unbounded sets of capability layouts; non-termination cannot be observed", "anchors": ["cocotbext/pcie/core/pci.py: walk_capabilities, get_capability_offset, capability_read, capability_write, is_pcie, pcie_type, setup", "cocotbext/pcie/core/caps/common.py: register, deregister, read_register, write_register"]}
{"id": "C52", "title": "Functions of the vendor device models", "statement": "For each vendor function, every configuration and every later use, the host's walk finds exactly the enabled capabilities, at the addresses the constructor asks for; it reads an MSI capability with the smallest sufficient number of vectors, an MSI-X table and pending bit array where configured, and a PCI Express endpoint that supports the configured payload size.", "quantifier": "for the four models, every physical function and configuration, every sequence of configuration writes, attribute assignments and ID changes, every read", "why_tests_cant": "all combinations of enabled capabilities, counts, functions and intervening writes", "anchors": ["cocotbext/pcie/xilinx/us/us_model.py: UltraScalePcieFunction, UltraScalePcieDevice.__init__", "cocotbext/pcie/xilinx/us/usp_model.py: UltraScalePlusPcieFunction, UltraScalePlusPcieDevice.__init__", "cocotbext/pcie/intel/s10/s10_model.py: S10PcieFunction, S10PcieDevice.__init__", "cocotbext/pcie/intel/ptile/ptile_model.py: PTilePcieFunction, PTilePcieDevice.__init__"]}
{"id": "C53", "title": "Intel device models", "statement": "The device models of the Intel hard IPs give a request to the user exactly if a BAR claims it, with its BAR and function numbers, a completion exactly if one of the functions asked for it, and answer the rest as PCI Express prescribes. What is accepted reaches the RX stream complete, once and in order. A completion is lost exactly if the completion buffer is full. Frames of the TX stream are sent as the TLPs the user put in, in order, requests only if the function is a bus master.", "quantifier": "for every device configuration, TLP and buffer limit, every interleaving of receptions, streams and configuration changes, of any length", "why_tests_cant": "all interleavings of requests and completions, unbounded executions", "anchors": ["cocotbext/pcie/intel/s10/s10_model.py: S10PcieDevice.upstream_recv, _run_rx_logic, _run_tx_logic", "cocotbext/pcie/intel/ptile/ptile_model.py: PTilePcieDevice.upstream_recv, _run_rx_logic, _run_tx_logic"]}
{"id": "C54", "title": "Configuration outputs of the Intel device models", "statement": "The time-multiplexed configuration outputs of the Intel hard IPs (tl_cfg) show, for every function in turn and every address, the fields of the configuration registers exactly as the host sees them at that time, 0 in all other bits, and within the width of the signal. Every word of every function appears once in each period, and what the host has written to a field is what the user logic is shown.", "quantifier": "for every number of functions, every sequence of register states, every cycle and every bit of the outputs; all three tile types", "why_tests_cant": "some 150 fields, any register contents changing at any cycle, unbounded executions", "anchors": ["cocotbext/pcie/intel/s10/s10_model.py: S10PcieDevice._run_cfg_out_logic_htile, _run_cfg_out_logic_ltile", "cocotbext/pcie/intel/ptile/ptile_model.py: PTilePcieDevice._run_cfg_out_logic"]}
{"id": "C55", "title": "Configuration interfaces of the UltraScale device models", "statement": "The status signals show in every cycle the link and control fields of the configuration registers as the host sees them, one group of bits for each function. The flow control signals show the credits of the selected kind: never more than what the link partner has left, and enough for a TLP means that the TLP can be sent. Every access of the configuration management interface is performed exactly once and in order, with the effect of a configuration request of the host, and done is set for one cycle, with the data that was read. Errors are reported in order, each once.", "quantifier": "for every number of functions, register contents, link history and credit advertisement, every sequence of signal values at clock edges interleaved with other accesses, of any length", "why_tests_cant": "unbounded sequences of accesses interleaved with the host, all credit counter values including wrap-around, any number of functions", "anchors": ["cocotbext/pcie/xilinx/us/us_model.py: UltraScalePcieDevice._run_cfg_mgmt_logic, _run_cfg_status_logic, _run_cfg_fc_logic", "cocotbext/pcie/xilinx/us/usp_model.py: UltraScalePlusPcieDevice._run_cfg_mgmt_logic, _run_cfg_status_logic, _run_cfg_fc_logic"]}
{"id": "C56", "title": "Interrupt interfaces of the device models", "statement": "An interrupt request of the user logic that the host allows sends exactly one MSI or MSI-X message, with the address and data the host has set up and the number of the vector in the bits the host has enabled, and is acknowledged in exactly one cycle, after the message has been sent. A request that the host does not allow is answered with a failure. The status outputs show for every function the enable, count and mask fields as the host sees them, and the pending bits are what the host reads.", "quantifier": "for every sequence of requests, clock edges and accesses of the host, every time a message waits for credits, any number of functions, all register contents", "why_tests_cant": "unbounded sequences of requests interleaved with the host's accesses, messages that wait for any time, all register contents", "anchors": ["cocotbext/pcie/xilinx/us/us_model.py: UltraScalePcieDevice._run_cfg_int_logic", "cocotbext/pcie/xilinx/us/usp_model.py: UltraScalePlusPcieDevice._run_cfg_int_logic", "cocotbext/pcie/intel/s10/s10_model.py: S10PcieDevice._run_int_logic", "cocotbext/pcie/core/caps/msi.py: MsiCapability.issue_msi_interrupt, MsixCapability.issue_msix_interrupt"]}
{"id": "C57", "title": "Driver functions: enabling, bus mastering, device control", "statement": "After any history of calls of the driver functions, every function that has been enabled and every bridge above it decodes memory and I/O addresses, and every bridge above it is bus master; a function's enable count and bus master bit are those of the calls; no other bit of command and status and no other register of any function changes. Setting maximum payload size, read request size, extended tags, CRS visibility or SERR changes exactly that field, the value reads back, and values out of range are refused without an access.", "quantifier": "for every tree of functions of any depth, every sequence of enable, disable, bus master and other configuration calls on any of them, every register content, every value", "why_tests_cant": "trees of any shape and unbounded histories of calls by several drivers sharing bridges, all register contents", "anchors": ["cocotbext/pcie/core/pci.py: PciDevice.enable_bridge, enable_device, enable_resources, disable_device, set_master, clear_master", "cocotbext/pcie/core/pci.py: PciDevice.get_readrq, set_readrq, get_mps, set_mps, configure_extended_tags, configure_serr, enable_crs"]}
{"id": "C58", "title": "Link settings and connection", "statement": "A device model constructor accepts exactly the settings of speed, width, interface and clock that the user guides allow, completes incomplete ones by the best choice, runs its clock at that frequency, and refuses straddling options that the interface does not support. Two connected ports agree on the highest speed and width that both support, packets take the time their size needs on that link to within one step, latency limits are those of the specification, and the link status register shows the result.", "quantifier": "for the four models, all given or omitted settings, all ports with any maximum speed and width, all packet sizes and time scales", "why_tests_cant": "all combinations of settings given and omitted, rational clock frequencies, packet sizes and time scales", "anchors": ["cocotbext/pcie/core/port.py: SimPort.connect, SimPort._connect_int, SimPort.handle_tx, get_max_update_latency", "cocotbext/pcie/xilinx/us/us_model.py: UltraScalePcieDevice.__init__", "cocotbext/pcie/xilinx/us/usp_model.py: UltraScalePlusPcieDevice.__init__", "cocotbext/pcie/intel/s10/s10_model.py: S10PcieDevice.__init__", "cocotbext/pcie/intel/ptile/ptile_model.py: PTilePcieDevice.__init__"]}
{"id": "C59", "title": "A TLP of the host reaches the function it is for", "statement": "After the host has enumerated a tree of bridges and functions and assigned addresses, every function has the number the host knows it by, a configuration request or completion for a number reaches the one function with that number (a type 1 request arriving as type 0) and nobody if there is none, and a memory or I/O request reaches the one function whose BAR was assigned the address, which decodes it to that BAR and offset, and nobody if no BAR was.", "quantifier": "for all trees of bridges, switches and functions, all BARs and ROMs, all bases of assignment, all TLPs and addresses", "why_tests_cant": "trees of any depth, any mix of BAR kinds and sizes, all addresses of all windows including their edges", "anchors": ["cocotbext/pcie/core/rc.py: RootComplex.enumerate", "cocotbext/pcie/core/pci.py: PciBus.scan, PciBus.scan_bridge, PciBus.assign_resources, PciDevice.setup_bridge", "cocotbext/pcie/core/bridge.py: Bridge.upstream_recv, Bridge.match_tlp_secondary", "cocotbext/pcie/core/switch.py: Switch._run_routing", "cocotbext/pcie/core/device.py: Device.upstream_recv", "cocotbext/pcie/core/function.py: Function.match_bar, Function.match_tlp"]}
{"id": "C60", "title": "A TLP of a function reaches the host or the function it is for", "statement": "After the host has enumerated a tree and assigned addresses, a completion that any function sends reaches the host if it is for the host, and the one function that has the number in it, and nobody if no function has it; a memory or I/O request that any function sends reaches the function whose BAR was assigned the address, the host if the address is in none of the ranges handed out, and nobody if it is in such a range but in no BAR.", "quantifier": "for all trees of bridges, switches and functions, all functions that send, all BARs, all bases of assignment, all TLPs and addresses", "why_tests_cant": "all pairs of functions in trees of any depth, all addresses of all windows including their edges", "anchors": ["cocotbext/pcie/core/bridge.py: Bridge.downstream_recv, Bridge.match_tlp_secondary", "cocotbext/pcie/core/switch.py: Switch._run_routing", "cocotbext/pcie/core/device.py: Device.upstream_send", "cocotbext/pcie/core/rc.py: RootComplex.enumerate, RootComplex.downstream_recv", "cocotbext/pcie/core/function.py: Function.match_tlp"]}
{"id": "C61", "title": "Accesses across the whole tree read and write the right bytes", "statement": "After the host has enumerated a tree and assigned addresses, a memory or I/O access of the host or of any function to a BAR of an endpoint, with all its requests and completions routed through the bridges and switches, returns exactly the bytes that the endpoint has there, or replaces exactly these bytes and nothing else; an access of any function to an address outside the ranges handed out does so with the memory of the host.", "quantifier": "for all trees of bridges, switches and functions, all requesters and BARs, all addresses and lengths within a BAR or host memory, all payload and read request sizes, all tags and all contents of memory", "why_tests_cant": "all splits of accesses into requests and completions for all lengths and alignments, all pairs of functions in trees of any depth", "anchors": ["cocotbext/pcie/core/region.py: MemoryTlpRegion, IoTlpRegion", "cocotbext/pcie/core/endpoint.py: MemoryEndpoint", "cocotbext/pcie/core/rc.py: RootComplex.handle_mem_read_tlp, RootComplex.handle_mem_write_tlp", "cocotbext/pcie/core/bridge.py: Bridge.upstream_recv, Bridge.downstream_recv", "cocotbext/pcie/core/switch.py: Switch._run_routing", "cocotbext/pcie/core/function.py: Function.match_bar"]}
{"id": "C62", "title": "Configuration accesses across the whole tree reach the right registers", "statement": "After the host has enumerated a tree, a configuration read for the number of a function returns the bytes of the configuration space of this function and changes nothing in the tree; a configuration write changes exactly the addressed writable bytes of this function and nothing of any other function, and its completion gets back to the host; with a number that no function has, reads return all ones and writes change nothing.", "quantifier": "for all trees of bridges, switches and functions, all functions in them, all addresses, lengths and data, all tags, and after any earlier accesses that leave the numbers as they are", "why_tests_cant": "all functions in trees of any depth and all splits of an access into requests, in all states that earlier accesses can leave", "anchors": ["cocotbext/pcie/core/rc.py: RootComplex.config_read, RootComplex.config_write", "cocotbext/pcie/core/function.py: Function.handle_config_0_read, Function.handle_config_0_write", "cocotbext/pcie/core/bridge.py: Bridge.upstream_recv, Bridge.downstream_recv", "cocotbext/pcie/core/switch.py: Switch._run_routing", "cocotbext/pcie/core/device.py: Device.upstream_recv"]}
{"id": "C63", "title": "While the host assigns bus numbers, configuration accesses go where the bus numbers in the bridges lead", "statement": "In a tree whose bridges have any bus numbers - at reset, in the middle of enumeration or after it - a configuration access of the host is exactly an access to the one function that the bus numbers lead to (the first bridge whose buses include the number, down to the bus itself), whose completions get back to the host, and no other function changes; if they lead to none, reads return all ones and writes change nothing. Hence the tree as enumeration sees it (register 0, header type, bus numbers of every function) stays what it is under all other accesses, and a write of the bus numbers changes exactly these.", "quantifier": "for all trees of bridges, switches and functions, all bus numbers in the bridges (overlapping ones too), all numbers, addresses, lengths, data and tags", "why_tests_cant": "all intermediate states of enumeration in trees of any shape, and all accesses in each of them", "anchors": ["cocotbext/pcie/core/bridge.py: Bridge.upstream_recv, Bridge.downstream_recv", "cocotbext/pcie/core/switch.py: Switch._run_routing", "cocotbext/pcie/core/device.py: Device.upstream_recv", "cocotbext/pcie/core/pci.py: PciBus.scan, PciBus.scan_bridge", "cocotbext/pcie/core/rc.py: RootComplex.config_read, RootComplex.config_write"]}
{"id": "C64", "title": "Enumeration by configuration requests through the tree finds what is there and numbers it", "statement": "In a tree of functions whose registers (identifiers, header type, BARs and masks, ROM, capability lists, PCI Express capability, bus numbers) are those of an abstract tree, the whole enumeration - register 0 of every device and function, header type, BAR probing, capability walk, payload size, extended tags, SERR, MSI and MSI-X enables, CRS visibility, bus numbers before and after each scan below a bridge - done with configuration requests that travel through the bridges ends exactly as the enumeration of the abstract tree does: with the same functions, kinds and sizes of BARs, ROM sizes, device types and bus numbers found, with registers that again are those of the abstract tree afterwards, and with the same exception if there is one.", "quantifier": "for all trees of bridges and functions of any shape, all capability lists, BAR layouts and previous bus numbers, all tags, and whether or not CRS software visibility is on", "why_tests_cant": "all topologies and register contents, and in each all the states in the middle of enumeration", "anchors": ["cocotbext/pcie/core/pci.py: PciBus.scan, PciBus.scan_bridge, PciDevice.setup, PciDevice.read_bars, PciDevice.walk_capabilities, PciDevice.configure_device", "cocotbext/pcie/core/bridge.py: Bridge.upstream_recv, Bridge.downstream_recv", "cocotbext/pcie/core/rc.py: RootComplex.config_read, RootComplex.config_write"]}
{"id": "C65", "title": "Addresses assigned by configuration writes through the tree arrive where they are meant for", "statement": "In a tree that the host has enumerated, the configuration writes with which it assigns addresses - to BARs of all kinds, expansion ROMs and the windows of bridges, function by function and bridge by bridge, through bridges of which some have their windows already and some do not - each change just the function they are for: at the end every BAR register holds the address that the assignment computes for it, every bridge forwards exactly what is behind it, all numbers are unchanged, and memory, I/O and configuration requests and completions then reach the functions that they are for and nobody else. What the registers held before, and what the host read from them, does not matter.", "quantifier": "for all enumerated trees of any shape, BAR layouts and ROM sizes, previous register contents, start addresses, tags and later TLPs", "why_tests_cant": "all topologies, layouts and start addresses, and in each all the states in the middle of the assignment", "anchors": ["cocotbext/pcie/core/pci.py: PciBus.assign_resources, PciDevice.assign_resources, PciDevice.assign_bars, PciDevice.setup_bridge", "cocotbext/pcie/core/rc.py: RootComplex.enumerate", "cocotbext/pcie/core/bridge.py: Bridge.upstream_recv", "cocotbext/pcie/core/function.py: Function.handle_config_0_write_tlp"]}
{"id": "C66", "title": "All of enumerate, from functions without numbers to TLPs that arrive", "statement": "RootComplex.enumerate, run by configuration requests through a tree of bridges and functions that have neither numbers nor addresses yet, numbers the buses without a gap, and leaves every function with the one number by which the host knows it (captured from the requests that reached it, and lost by none of the later ones), all bridges with the buses behind them, and all BARs and bridge windows with the addresses of the assignment; afterwards every configuration request, completion, memory and I/O request of the host reaches the one function it is for, and no function if it is for none.", "quantifier": "for all trees of bridges and functions of any shape with up to 256 buses, capability lists, BAR layouts and ROM sizes, start addresses, tags and later TLPs", "why_tests_cant": "all topologies and register contents; each step depends on what all earlier requests have left in the tree", "anchors": ["cocotbext/pcie/core/rc.py: RootComplex.enumerate", "cocotbext/pcie/core/pci.py: PciBus.scan, PciBus.scan_bridge, PciDevice.setup, PciBus.assign_resources, PciDevice.setup_bridge", "cocotbext/pcie/core/bridge.py: Bridge.upstream_recv, Bridge.downstream_recv", "cocotbext/pcie/core/function.py: Function.handle_config_0_read_tlp, Function.handle_config_0_write_tlp"]}
{"id": "C67", "title": "Accesses after enumerate, from the first configuration request on", "statement": "In the tree that the configuration requests of enumerate have left, memory and I/O reads and writes of the host and of functions, with all their requests, splits and completions, read and change exactly the bytes of the BAR or of the host at the address and nothing else; configuration accesses of the host reach the function with the number and no other; completions and requests of functions go to the host or to the function that they are for, if there is a way, else nowhere. Whenever the BARs, ROMs and bridge granules fit above the start addresses, enumerate ends without an error and uses no more space than that.", "quantifier": "for all trees of bridges and functions with up to 256 buses, register contents, start addresses, addresses, lengths, data, tags, requesters and payload settings", "why_tests_cant": "all topologies, and the state that hundreds of earlier configuration requests have left in them", "anchors": ["cocotbext/pcie/core/rc.py: RootComplex.enumerate, RootComplex.mem_read, RootComplex.mem_write", "cocotbext/pcie/core/region.py: MemoryTlpRegion, IoTlpRegion", "cocotbext/pcie/core/endpoint.py: MemoryEndpoint", "cocotbext/pcie/core/bridge.py: Bridge", "cocotbext/pcie/core/switch.py: Switch"]}
{"id": "C68", "title": "Transmit flow control outputs of the Intel device models", "statement": "Credits that the Stratix 10 outputs show, and those left of the limits that the P-Tile output shows in turn, are free in the buffers of the link partner at any later time as long as the user logic has not used them itself; a TLP for which they suffice is sent at once, and on P-Tile one for which they do not is held back. The P-Tile output shows every pool once in six cycles.", "quantifier": "for every link history and credit advertisement, every sequence of events of any length between looking at the outputs and sending, each pool seen at a time of its own", "why_tests_cant": "unbounded delays between the output and its use, counter wrap-around, all interleavings of updates in flight", "anchors": ["cocotbext/pcie/intel/s10/s10_model.py: S10PcieDevice._run_tx_fc_logic", "cocotbext/pcie/intel/ptile/ptile_model.py: PTilePcieDevice._run_tx_fc_logic", "cocotbext/pcie/core/port.py: FcStateData"]}
{"id": "C69", "title": "Functions that are not ready when the scan finds them", "statement": "A function that answers with configuration request retry status until some time is found by the scan if it is ready within 10.23 ms of the first read: wait_crs ends, it reports a function as ready only if it is, after at most twice the time needed and 10 us, and it gives up only functions that need longer. Without CRS software visibility such a function is taken for absent.", "quantifier": "for every time at which the function becomes ready, every vendor and device number, every duration of requests and every other behaviour of the function", "why_tests_cant": "the tests' devices are ready at once, and the time is a continuum", "anchors": ["cocotbext/pcie/core/pci.py: PciBus.wait_crs, PciBus.scan", "cocotbext/pcie/core/rc.py: RootComplex.config_read"]}
{"id": "C70", "title": "The reset outputs of the device models", "statement": "The reset outputs of the four device models change at clock edges only. While the reset input is low, from the second clock edge on they are asserted; a fall of the input, however short, asserts them at one of the next two clock edges. They are released only while the input is high, and only after it has been high for 100 ns; and they are released, and stay so, once it has been high for two clock edges, 100 ns and another edge. The UltraScale models answer configuration requests with a retry status, without any effect, if and only if the reset input or cfg_config_space_enable was low at the last clock edge.", "quantifier": "for every sequence of clock edges, edges of the reset input and delays, from every point of every execution", "why_tests_cant": "tests use one clock and one or two resets; the cases are those where edges of two unrelated signals and the timer interleave", "anchors": ["cocotbext/pcie/xilinx/us/us_model.py: UltraScalePcieDevice._run_reset", "cocotbext/pcie/xilinx/us/usp_model.py: UltraScalePlusPcieDevice._run_reset", "cocotbext/pcie/intel/s10/s10_model.py: S10PcieDevice._run_reset", "cocotbext/pcie/intel/ptile/ptile_model.py: PTilePcieDevice._run_reset", "cocotbext/pcie/xilinx/us/us_model.py: UltraScalePcieDevice._run_cfg_ctrl_logic", "cocotbext/pcie/xilinx/us/usp_model.py: UltraScalePlusPcieDevice._run_cfg_ctrl_logic"]}
{"id": "C71", "title": "The queues of the streams and their limits", "statement": "The occupancy counters of a stream's source or sink are the number and the total length of the frames in its queue. Every frame given to it is put into the queue once, in the order in which the calls get through, unless send_nowait refuses it; frames come out in the order in which they went in. A queue does not exceed its limits, and a send that has to wait goes on once frames are taken out. A sink that is neither full nor paused becomes ready with the next clock edge.", "quantifier": "for every sequence of calls by any number of coroutines, every order in which waiting ones go on, all limits and frames", "why_tests_cant": "the state depends on the interleaving of several senders, the stream and clear; a lost wakeup or a wrong counter shows up only in some of them", "anchors": ["cocotbext/pcie/xilinx/us/interface.py: UsPcieBase.clear, UsPcieSource.send, send_nowait, full, _get_frame, _get_frame_nowait, UsPcieSink._recv, full, _sink_frame, _run_sink", "cocotbext/pcie/intel/s10/interface.py: S10PcieBase, S10PcieSource, S10PcieSink", "cocotbext/pcie/intel/ptile/interface.py: PTilePcieBase, PTilePcieSource, PTilePcieSink"]}
{"id": "C72", "title": "Idle sources and sinks", "statement": "The event that wait() of a stream's source waits for is set only if everything given to send() has left the bus (but for what a reset took from it or clear() from the queue), and it is set after a bounded number of clock edges if nothing holds the source up; idle() is true only if everything has left the bus. wait() of a sink returns exactly if there is a frame to receive, and its idle() is true exactly if no frame is being received.", "quantifier": "for every sequence of frames of any size, every layout of frames on the bus, every pattern of ready, pause and reset, every schedule of the coroutines, and all ready latencies", "why_tests_cant": "the flags go wrong only in certain orders of coroutines at the same clock edge, and the number of frames is unbounded", "anchors": ["cocotbext/pcie/xilinx/us/interface.py: UsPcieSource.send, idle, wait, _drive, _run_source", "cocotbext/pcie/intel/s10/interface.py: S10PcieSource.send, idle, wait, _drive, _run_source", "cocotbext/pcie/intel/ptile/interface.py: PTilePcieSource.send, idle, wait, _drive, _run_source", "cocotbext/pcie/xilinx/us/interface.py: UsPcieSink.recv, idle, wait, _sink_frame, RqSink._run", "cocotbext/pcie/intel/s10/interface.py: S10PcieSink.recv, idle, wait, _run, _sink_frame", "cocotbext/pcie/intel/ptile/interface.py: PTilePcieSink.recv, idle, wait, _run, _sink_frame"]}
{"id": "C73", "title": "Pause generators", "statement": "After set_pause_generator, whatever was set before, pause is the generator's first value and then the next one after each clock edge; when the generator has ended or is cleared, the last value stays. A sink of the UltraScale streams is woken exactly once for each change of pause.", "quantifier": "for all generators, finite or not, all numbers of clock edges and all earlier settings", "why_tests_cant": "generators are infinite in general, and the tests do not look at pause after the generator is cleared", "anchors": ["cocotbext/pcie/xilinx/us/interface.py: UsPcieBase.pause, set_pause_generator, clear_pause_generator, _run_pause", "cocotbext/pcie/intel/s10/interface.py: set_pause_generator, _run_pause", "cocotbext/pcie/intel/ptile/interface.py: set_pause_generator, _run_pause"]}
