# Formal model of cocotbext-pcie

Target: `cocotbext/pcie` (Python) as found in `/repo`.  Nothing of it is executed; every
definition in `rocq/theories/Model*.v` is a hand transcription of the cited Python lines.

## Trusted base

* The Coq 8.16.1 kernel (and `coqchk`, which the gate runs).
* The axioms listed by `Print Assumptions` under every theorem of `Properties*.v`.  The intention
  is that all of them report "Closed under the global context"; any exception is listed in
  section "Axioms" below.
* The faithfulness of the `Model*.v` transcription (comments cite file and lines).
* Outside the model: Python's and cocotb's runtime (event loop, `Queue`, `Event`, `Timer`),
  floating point timing, logging, the external package `cocotbext.axi` (`AddressSpace`, `Region`,
  `Window`, pools), VPI signal handling.  Where a property touches them the model makes the
  relevant choice an explicit input (a schedule, an oracle) and the theorem quantifies over it.

## Modelling conventions

* Python integers are `Z`; `&`, `|`, `<<`, `>>`, `~`, `//`, `%` are `Z.land`, `Z.lor`, `Z.shiftl`,
  `Z.shiftr`, `Z.lnot`, `Z.div`, `Z.modulo` (these agree with Python on all integers; all divisors
  that occur are positive).  `bytes`/`bytearray` are `list Z`, each element in `[0,256)`
  (predicate `bytes_ok`).
* Exceptions are values: `res A := Ok a | Err exn`.
* `async` functions are modelled by their atomic segments between awaits where interleaving
  matters (flow control, data link layer, tags) and as ordinary functions where it does not.
* Records mirror Python attributes.  Enum conversions (`TlpType(...)`, `CplStatus(...)`) that raise
  `ValueError` for unknown values are modelled with that error.
* Files: `Base.v` (result type, byte strings, struct), `Bits.v` (reflective bit-field decision
  procedure), `ModelX.v` (code), `SpecX.v` (independent specification vocabulary), `ProofsX.v`
  (lemmas), `PropertiesX.v` (only theorems closed by `exact`, examples and `Print Assumptions`).

## Plan per property

| id | modelled | proof idea |
|----|----------|-----------|
| C01, C02 | `Tlp.pack_header/pack/unpack_header/unpack` over a record of all header fields | reflective bit-field round trip per type |
| C03, C04 | `Dllp.*`, `crc16` bit loop | CRC linearity over GF(2); finite sweep over 48-bit error classes lifted by linearity |
| C05-C08 | byte enable helpers, `check` | arithmetic; refutations for lower address and `check` |
| C09-C13 | `MemoryTlpRegion`, `MemoryEndpoint`/`RootComplex` completers over a byte memory `Z -> Z` | induction on the splitting loops (well-founded through fuel, exhaustion excluded), composition |
| C14 | same completers, arbitrary byte enables | loop invariant on processed bytes |
| C15-C18 | two ports and a FIFO link each way as a transition system | invariants over all schedules, unbounded ghost totals vs. wrapped counters |
| C19, C20 | tag table and completion queues as transition system | invariant; refutation for late completions |
| C21, C22 | BAR registers | arithmetic on masks |
| C23 | configuration registers of Function, Endpoint, Bridge | reflective bit equality per register |
| C24 | host config splitting against a byte-addressed config space | induction |
| C25 | capability list operations | invariant over op lists; refutation for auto placement |
| C26, C27 | capability registers | reflective bit equality |
| C28 | vector allocation and message addressing, number of vectors, which writes set events | invariant; refutation for misaligned blocks; inversion |
| C29, C30, C44 | bridge/switch/device routing decision, error status bits | case analysis, induction on ports |
| C31 | numbering | invariant over op lists |
| C32-C34 | enumeration over finite trees | structural induction on trees |
| C35 | utilities | arithmetic / bit level |
| C36 | UltraScale descriptors | reflective bit-field round trip |
| C37 | UltraScale streams | named disjoint fields, simulation of sink by source, invariant over all schedules, measure for delivery |
| C38 | Intel streaming source/sink | conversion both ways for all TLPs, then as C37 with any ready latency |
| C39 | vendor frame parity | linearity of parity over single-bit changes |
| C40 | word helpers | induction |
| C43 | MSI and MSI-X registers | reflective bit equality |
| C45-C50 | UltraScale device models as one transition system | invariants over all schedules; refutations by concrete runs |
| C51 | the host's capability walk over the configuration space | induction on the chain of C25, composed with C24 |
| C52 | capabilities of the vendor functions | computation of the layout for each vendor and set of capabilities, invariant under all later operations, composed with C51 |
| C53 | Intel device models: routing, receive queue, completion buffer, transmission | case analysis of `upstream_recv` with C21 and C38; invariant over the coroutines' segments relating the counts to what is held and to the requests that left |
| C54 | Intel configuration outputs | each word compared with the register reads bit by bit (`bits`), invariant over the cycles, composed with the register theorems C23, C26, C27, C43 |
| C55 | UltraScale status, flow control and management interfaces | positional words over the functions, composed with C15, C16 (credits), C24 (registers); induction over segments of the management handshake, and a decomposition of every run into such segments |
| C56 | interrupt interfaces of the UltraScale and Stratix 10 device models | decomposition of every run into samples (UltraScale) or handshakes (Stratix 10) by induction on the length of the run, and the converse; message and outputs composed with the register theorems C43 |
| C57 | driver functions: enabling, bus mastering, device control | pointwise effect of one call on every function of a tree, invariants over all histories of calls; register effects from C24 and C51 |
| C58 | link settings of the device models, connection of two ports | tables shown equal to rules by cases, selection by induction over the sorted table, exact rational arithmetic for clocks and times |
| C59 | the tree of functions after enumeration and assignment | induction over the tree, composed with C20 (routing), C21 (decoding), C32, C33 (numbers, addresses); the register writes of the host put the tree into the state that the search assumes |
| C60 | what functions send, in that tree | one predicate for where a tree leads (by structural induction from the numbers, and from the addresses), from which the way up, across and down follows for every sender |
| C61 | memory and I/O accesses of the host and of functions, in that tree | the way there and back from C59 and C60, the splitting and joining of accesses from C09-C12 and C42; for writes, induction over the requests with the contents of all memories |
| C62 | configuration accesses of the host, in that tree | TLPs routed by number go the same way in any two trees with the same numbers (induction over the trees); then the way there and back from C59 and C60, and C24 at the function |
| C63 | configuration accesses of the host in a tree with any bus numbers, while it assigns them | one request there and back in one pass; induction over the tree: what it does is what the bus numbers lead to (`ask_all`); simulation: the tree of functions and ModelEnum's tree agree before and after every access |
| C64 | enumeration done with configuration requests in the tree | relational lifting of every driver call from one function to the tree (`ProofsEnumPar`, `ProofsEnumVia`); each call keeps the registers those of the abstract function (`told`, `ProofsEnumFn`); functions on buses already numbered stay in reach (`stay`, `ProofsEnumTree`); induction over functions, devices, bridges and depth (`ProofsEnumScan`) |
| C65 | assignment of addresses by configuration writes in the enumerated tree | a bus in its place: where the numbers of a bus lead does not depend on what the rest of the tree holds (`opens`, `ProofsAssignVia`); the values computed do not depend on what was read from the registers (`fn_alike`, `ProofsAssignCfg`); induction over functions and depth along the assignment, C59 for the tree that results (`ProofsAssignTree`) |
| C66 | all of `enumerate` in a tree without numbers | an invariant of the tree at any time during the scan (`inv`, `ProofsEnumCap`): functions that have been accessed have the number of the place they are at, exactly the bridges with a known number have buses, secondary buses are different, windows are whole granules (`ProofsEnumWhole`); every access and both writes of bus numbers keep it (`ProofsEnumTree`, `ProofsEnumScan`); at the end all functions have been accessed (C32), so the hypothesis of C65 holds (`ProofsEnumEnd`) |
| C67 | accesses in the tree that `enumerate` leaves | the proofs of C59-C62 use only that the tree is arranged (`arranged`, `ProofsTreeAll`: numbers, BARs and windows of the assignment); `set_up` arranges it (C59), and so do the configuration requests (C66, `ProofsAfter`); the space needed does not depend on bus numbers, so C33's bound makes enumeration succeed (C67_room) |
| C68 | transmit flow control outputs of the Intel models | on every step the limit stays or becomes that of an update in flight, whose values are a chain (C15, C16); limits are unique modulo the counter width as less than half of it is in use, so they only grow and credits once shown go down only by what is sent |
| C69 | functions that answer with CRS | induction over the delays: before the one of `d` us, `d - 10` us have passed and the function was not ready then |
| C70 | the reset outputs | invariants of the coroutine as a state machine, with the time the input has been high beside it |
| C71 | queues of the streams | invariant: the counters are those of the content, and a coroutine that sleeps does so because the queue is full; a sink that sleeps without being ready is full or paused, one that sleeps while ready is not paused, whenever `pause` is changed |
| C72 | idle flags of the sources | invariant: what was sent is what was taken, lost, on the bus, in `drive_obj`, held and queued; a measure that every edge makes smaller; sinks by induction over the words |
| C73 | pauses and their generators | induction over the values taken |

## Axioms

Every theorem listed so far reports "Closed under the global context".

## Coverage

| file | modelled | not modelled |
|------|----------|--------------|
| core/utils.py | all of it | - |
| core/dllp.py | all of it | `__repr__`, copy constructor |
| core/tlp.py | `Tlp`: fields, `fmt_type`, `check`, completion constructors, byte enable helpers, size/credit getters, header and packet pack/unpack, `__eq__`, copy constructor | `__repr__`, `__str__`; `release_fc` is modelled with flow control |
| core/region.py | `MemoryTlpRegion.read/write`, `IoTlpRegion.read/write`: request splitting, completion reassembly | timeouts other than "nothing more arrives"; concurrency of the operations of one access (each has its own tag and queue); constructor |
| core/endpoint.py | constructor, configuration registers of `Endpoint`; `MemoryEndpoint` TLP handlers, `read_region`/`write_region` on an mmap | regions given by user callbacks; logging |
| core/port.py | `FcStateData`, `FcChannelState`, `Port` (credit gate, transmit loop, receive, ACK/NAK, timers, flow control initialisation) and the connection of two `SimPort`s as a transition system over all schedules | virtual channels other than VC0 (never activated), in that system any positive delay (the times themselves: next row), retransmission (raises in the code, shown unreachable), classes with other handlers |
| core/port.py:36-76, 651-712 | rates, `get_max_update_latency`, `connect`, `_connect_int`, the times of `handle_tx` and `_transmit` (`ModelLink`), with exact rationals for floats | `PCIE_GEN_SYMB_TIME` (unused), `connect` of objects that are not ports |
| core/function.py (tags) and core/rc.py (tags) | completion queues, `alloc_tag`, `release_tag`, `recv_cpl`, `perform_nonposted_operation` as a transition system over all interleavings | durations of timeouts (a timeout may happen at any time while nothing is queued) |
| core/function.py:602-712, core/rc.py:605-860, core/pci.py:420-537 (word helpers) | `*_read_words`, `*_write_words` and the byte, word, dword, qword forms, once for all eight copies (`ModelWords`) | negative word sizes; timeout, attr and tc arguments; `RootComplex.capability_*` (calls `find_child_dev`, which does not exist, and raises AttributeError) |
| core/pci.py | `PciDevice.config_*` accesses, `read_bars` (`ModelPci`); `walk_capabilities`, `get_capability_offset`, `capability_read`, `capability_write`, `is_pcie`, `pcie_type`, `pcie_mpss` (`ModelPciCaps`); the rows below | logging; the rest of `PciDevice` (so far) |
| core/pci.py:386-404, 539-612, 758-809 (drivers) | `enable_bridge`, `enable_device`, `enable_resources`, `disable_device`, `set_master`, `clear_master`, `is_enabled`, `get_readrq`/`set_readrq`, `get_mps`/`set_mps`, `configure_extended_tags`, `configure_serr`, `enable_crs` (`ModelDriver`) | logging; concurrency of drivers (each call runs to its end); routing of the configuration accesses in the tree is that of C29, C30 and C32 |
| core/pci.py:33-230, 389-404, 623-788 (enumeration) | `PciBus.scan`, `scan_bridge`, `PciDevice.setup` as far as header type, PCIe capability and `configure_mps`, over a tree of functions of any shape; configuration accesses go down the tree by bus numbers (`ModelEnum`, linked to `ModelRoute` by C63, and by `C32_type0`, `C32_type1`) | BAR probing (`ModelPci`), capability walk (the PCIe capability is as found; that it is found is C51), extended tags, SERR, MSI and CRS set up: none of these changes what enumeration depends on; registers other than those named; devices that answer with CRS for a while (one that goes on to is skipped); `to_str`; a second enumeration |
| core/pci.py:232-258, 1049-1060, 1153-1297, core/rc.py:875-896 (addresses) | `PciBus.assign_resources`, `PciDevice.assign_resources`, `assign_bars`, `setup_bridge` on the tree enumeration finds, with the registers written; the bridge's side of `setup_bridge` (`ModelAssign`, `SpecAssign`) | the host's address space windows (`create_window`), logging |
| core/rc.py (configuration) | `config_read`, `config_write`, delivery to a function through `recv`/`handle_config_0_*` (`ModelHost`) | tags and timeouts (`perform_nonposted_operation` is an oracle returning what the operation delivers); reads of registers whose value is `None` raise and are excluded by `readable` |
| core/rc.py | `handle_io_*_tlp`, `handle_mem_*_tlp` | the address space of `cocotbext.axi` is an oracle: its cells, `find_regions`, whether an access raises |
| core/caps/{pm,pcie,aer,msi}.py | constructors, `_read_register`, `_write_register` of all classes (translated line by line; attributes are numbered, `False`/`True` are 0/1) | - |
| core/caps/common.py | `PciCap`, `PciExtCap`, `PciCapList`, `PciExtCapList` (objects with identity in a heap; user classes with any register methods) | `__iter__` and the like; user classes whose methods touch other objects |
| core/bridge.py (registers) | constructor, configuration registers | routing (below) |
| core/msi.py, core/pci.py (interrupts), core/caps/msi.py (`issue_*`) | vector allocation, the MSI region, `alloc_irq_vectors`/`free_irq_vectors` with their configuration accesses, `issue_msi_interrupt`/`issue_msix_interrupt` (`ModelMsi`) | the address space handing a write to the MSI region is a function call; the MSI-X table in the BAR is a memory of dwords; callbacks of vectors (events only); concurrency of drivers |
| core/function.py | constructor defaults, configuration registers, capability registration, `configure_bar`, `match_bar`, `match_tlp`, `send`/`upstream_send`/`upstream_recv`, `handle_config_0_*_tlp` | delegation of other TLPs to handlers set by subclasses (modelled with those) |
| core/bridge.py (routing), core/device.py, core/switch.py | `match_tlp_secondary`, `upstream_recv`, `downstream_recv`, `send`; numbering of functions and ports; device and switch routing (`ModelRoute`; the tasks of a switch as a transition system over all schedules) | messages, locked and atomic types (the code raises for them); the links between ports (core/port.py); logging |
| core/rc.py:867-895, core/pci.py:204-258, core/bridge.py:323-383, core/device.py:117-163, core/switch.py:166-191 (the tree) | where a TLP from the host ends, the registers of all functions after enumeration and assignment (`ModelTree`) | status bits set on the way (C44); the registers other than numbers, BARs, ROM and windows; the probe itself (C22), whose result is an assumption (`seen`); that the writes reach the functions while numbers are assigned is C32's subject (`answers`) |
| core/bridge.py:397-448, 488-509, core/switch.py:164-225, core/device.py:157-163 (the tree, upwards) | where a TLP from any function ends (`ModelTreeUp`) | completions with status UR for requests that end nowhere (C20); order and arbitration (C37); status bits (C44); requests for configuration and messages from functions |
| core/rc.py:304-561, core/endpoint.py:236-426, core/region.py:41-240 (in the tree) | one access after the other, with the memories of the host and of all endpoints (`ModelFabric`) | accesses at the same time; completions with status UR for requests that end nowhere; endpoints that are not `MemoryEndpoint`; zero-length writes (C10); I/O of functions to the host |
| core/rc.py:267-300, 563-646, core/function.py:113-114, 447-461, 547-600 (in the tree) | one configuration request after the other, with the state of all functions (`ModelTreeCfg`) | accesses at the same time; completions with status UR for requests that end nowhere; the bus number that a device tells all its functions (they have it already); status CRS |
| core/bridge.py:323-448, core/switch.py:164-225, core/device.py:117-163, core/rc.py:267-300 (configuration accesses at any time) | one configuration request after the other in a tree with any bus numbers (`ModelScan`); it behaves as the tree that enumeration is modelled over (`ModelEnum`), C63 | as in the row above; the number 0:0.0 of the host bridge itself; trees in which a bridge with buses has not yet been told its own number and would take itself for the host (`awake`: enumeration tells it with the accesses before and with the write of the buses at the latest) |
| core/pci.py:63-230, 623-756 (enumeration with its accesses) | `PciBus.scan`, `scan_bridge`, `PciDevice.setup` and `configure_device` in full: every configuration access in order, over the tree of `ModelScan` (`ModelEnumCfg`); it refines `ModelEnum`, C64 | `wait_crs` waits (a device that answers with CRS once is skipped); `to_str`, logging; functions whose capability lists are not right (C25, C51), with BAR registers that are no layout (C22), or with a PCI Express capability that is not of the library's class; other header types than 0 and 1; a second enumeration (the theorem applies to it, as the registers are again those of a tree) |
| core/pci.py:232-258, 1049-1060, 1153-1297 (assignment with its accesses), core/rc.py:867-895 | the configuration writes of the assignment in order over the tree of `ModelScan`, the host bridge's windows at the end (`ModelAssignCfg`), C65 | the values of one function are computed before the first of them is written (no difference without exceptions); the windows that serve the host's own accesses; the state after an exception |
| xilinx/us/tlp.py | all descriptor functions and tables of `Tlp_us`, the copy constructor (`ModelUs`; `check` is the `check_parity` argument) | `__repr__`; `__eq__` (theorems compare all fields, which is stronger) |
| xilinx/us/interface.py:46-96, intel/s10/interface.py:91-166, intel/ptile/interface.py:91-183 (frames) | `dword_parity`, the frame classes, `update_parity`, `check_parity` (`ModelFrames`) | constructors from other frames, `__repr__` |
| xilinx/us/interface.py:97-497 (base, handshake) | the queue, `_drive`, `_run_source`, `_run_sink`, the monitors of tvalid and tready, as a transition system whose labels choose arrivals and pauses (`ModelChan`); values that do not fit a signal raise | reset, queue limits other than as pauses, `idle`/`wait`/`active` flags, X values; cocotb's scheduler (assumed: both sides of an edge sample before either writes; a woken coroutine runs before the next edge) |
| xilinx/us/interface.py:138-152, 179-183, 262-288, 341-355, 389-417, 490-495, intel/s10/interface.py:210-221, 268-272, 353-378, 474-486, 513-534, 637-642, intel/ptile/interface.py:228-239, 294-298, 387-412, 512-524, 551-572, 673-678 | `send`, `send_nowait`, `full`, `clear`, `_get_frame`, `_get_frame_nowait`, `recv`, `recv_nowait`, `_sink_frame` (`ModelQueue`), interleaved in any order between two `await`s, and `_run_sink` as far as the queue matters (us: 444-485, s10: 547-578, ptile: 585-616) | reset; `cocotb.queue.Queue` is a list |
| xilinx/us/interface.py:225-497, 604-695, intel/s10/interface.py:301-643, intel/ptile/interface.py:327-679 (idle flags) | `ModelIdle`: `send`, `clear`, `_drive`, `_run_source`, `idle`, `wait`, with reset, pauses, ready latency and the sleep of the UltraScale source; `recv`, `clear`, `idle`, `wait` and the flags in `_run` of the sinks | timeouts of `wait`, X values, empty frames; the layout of frames on the bus is any (C37, C38 have it) |
| xilinx/us/interface.py:191-222, 389-390, intel/s10/interface.py:280-298, intel/ptile/interface.py:306-324 (pauses) | `ModelPause`: `pause`, `set_pause_generator`, `clear_pause_generator`, `_run_pause` | generators that raise, one generator in two streams |
| xilinx/us/interface.py:498-1249 (RQ, RC, CQ, CC) | `_init`, `_run` of the four sources and sinks (`ModelUsStream`) | logging |
| xilinx/us/us_model.py:71-103, 685-718, usp_model.py:109-139, 795-862, intel/s10/s10_model.py:59-89, 521-588, intel/ptile/ptile_model.py:72-110, 672-739 | the capabilities of a function: registration, MSI and MSI-X configuration, supported payload size and extended tags (`ModelVendorFn`); the function's number is a parameter | signal initialisation |
| xilinx/us/us_model.py:40-68, 585-679, 726, usp_model.py:42-79, 670-789, 870, intel/s10/s10_model.py:39-56, 418-515, 593, intel/ptile/ptile_model.py:39-69, 554-666, 744 | the constructors' selection and checks of link speed, width, clock and straddling, the clock period (`ModelLink`) | log output, except that an unset clock raises |
| intel/s10/s10_model.py:260-261, 611-716, 755-767, intel/ptile/ptile_model.py:333-343, 757-862, 897-909 | `upstream_recv`, `_run_rx_logic`, `_run_tx_logic`, the completion buffer (`ModelIntelDev`); configuration changes as arbitrary new devices | reset, the function's own `upstream_recv` (C30), credits of received TLPs (C44) |
| intel/s10/s10_model.py:770-794, intel/ptile/ptile_model.py:918-945 | `_run_tx_fc_logic` (`ModelIntelFc`), every signal connected | `rx_buffer_limit`, `tx_cdts_consumed` and the others the code does not drive |
| core/pci.py:124-143, 157-165, 172-182 | `wait_crs` and the reads of register 0 in `scan`, in time (`ModelCrs`) | the log; in the scan of C64 and C66 (`ModelEnumCfg`) functions answer without CRS |
| intel/s10/s10_model.py:853-1022, intel/ptile/ptile_model.py:987-1184 | `_run_cfg_out_logic_htile`, `_ltile`, P-Tile `_run_cfg_out_logic`: the three signals in every cycle (`ModelTlCfg`); changes of the registers as arbitrary new states between cycles | the clock itself, an empty list of functions (the coroutine would not return) |
| xilinx/us/us_model.py:944-972, usp_model.py:1088-1115, intel/s10/s10_model.py:718-753, intel/ptile/ptile_model.py:864-893; us_model.py:1394-1406, usp_model.py:1518-1530 | `_run_reset`, `_run_cfg_ctrl_logic` as far as it sets `config_space_enable` (`ModelReset`), as state machines over clock edges, edges of the input and delays | the order of edges at the same time; the code resets nothing else |
| xilinx/us/us_model.py:1175-1267, 1304-1391, usp_model.py:1335-1423, 1453-1516 | `_run_cfg_mgmt_logic`, `_run_cfg_status_logic`, `_run_cfg_fc_logic` (`ModelUsCfg`); all optional signals connected | the coroutines `_run_cfg_msg_rx_logic`, `_run_cfg_msg_tx_logic` (they do nothing), widths of signals narrower than the values (more than four functions) |
| xilinx/us/us_model.py:1427-1537, usp_model.py:1555-1663, intel/s10/s10_model.py:823-845 | `_run_cfg_int_logic`, `_run_int_logic` (`ModelVendorInt`): sampling, issue of the message, waiting for it to be sent, acknowledgement, status outputs and pending bits; all optional signals connected | the transmission of the message (C28, C50, C53), INTx and the outputs the code does not drive; P-Tile `_run_int_logic` (it does nothing) |
| xilinx/us/us_model.py, usp_model.py (data path) | `get_free_tag`, `get_available_tag_count`, `upstream_recv`, `_run_cq_logic`, `_run_cc_logic`, `_run_rq_logic`, `_run_rq_np_queue_logic`, `_run_rq_seq_num_logic`, `_run_rq_tag_logic`, `_run_rc_logic` and the error report of `_run_cfg_status_logic`, as a transition system over all schedules of the segments between two `await`s; constants of both cores (`ModelUsDev`) | the streams themselves (`ModelUsStream`), `send` after its check, the `cfg_*` coroutines other than that, reset; the sequence number and tag outputs are shown one at a time (the hardware widths show up to two) |
| intel/s10/interface.py:100-132, intel/ptile/interface.py:105-138 | frames from TLPs and back (`ModelIntel`) | constructors from other frames (copies) |
| intel/s10/interface.py:187-642, intel/ptile/interface.py:205-678 | bus widths and assertions of `_init`, `_drive`, `_run_source`, `_run` of source and sink, `_run_sink`, for any ready latency, segment count and choice of optional signals (`ModelAvst`, `ModelIntel`) | reset, queue limits other than as pauses, `idle`/`wait`/`active` flags, X values, a ready latency changed while running; cocotb's scheduler (assumed as for C37) |

## Findings

Behaviour of the code that contradicts a property, each with a theorem `..._refuted`.

* **C01** `create_ur/crs/ca_completion_for_tlp` leave `byte_count` at 0; on the wire 0 means 4096, so
  the decoded completion differs (`C01_ur_completion_refuted`).
* **C01** the copy constructor `Tlp(tlp)` does not copy `th` (`C01_copy_refuted`).
* **C07** `get_lower_address` computes `address & (0x7c + offset)` instead of
  `(address & 0x7c) + offset` (tlp.py:419): the first-byte offset is lost (`C07_lower_address_refuted`).
* **C08** `0 > self.length > 1024` is never true and `self.fmt_type == {...}` compares with a set, so
  the length range and the IO/configuration rules are never enforced (`C08_check_sound_refuted`,
  `C08_check_length_refuted`).
* **C04** (limit of the protocol, not a bug) some five-bit errors are undetected (`C04_odd_refuted`).
* **C11** a read that starts inside a BAR and runs past its end is answered successfully with too little
  data (`read_region` slices an mmap, endpoint.py:226), so the requester times out
  (`C11_past_end_refuted`).
* **C11** the completion of a zero-length read carries lower address offset 3; the PCIe specification asks
  for 0 when no byte is enabled (`get_first_be_offset` returns 3, tlp.py:384-393;
  `C11_zero_length_refuted`).
* **C17** the receiver makes a copy of each TLP with the copy constructor above and so delivers it without
  TH (`C17_content_refuted`).  `C17_in_order` states delivery modulo this.
* **C18** the number of unacknowledged TLPs is not limited; an ACK that covers more than 2048 TLPs looks
  like an old one and is ignored, so that the retry buffer keeps acknowledged TLPs
  (`C18_unbounded_refuted`).  `C18_exact` assumes that the buffer never exceeds 2048.  Delivery is not
  affected (`C17_*` and `C18_suffix` hold without the assumption).
* **C20** after a timeout the tag is released and its queue is not protected: a completion that arrives
  later is given to the next operation with the same tag (`C20_refuted`).  The theorems `C20_*_partial`
  cover all executions without such completions.
* **C19** if `send` raises in `perform_nonposted_operation`, the tag stays allocated for ever
  (`C19_failed_keeps_tag`); uniqueness is not affected.
* Not a violation: `UpdateFC` DLLPs carry `fc_init_vc` instead of the index of their channel
  (port.py:477-490); only VC0 is ever active.
* **C26** `_write_register` of `PcieCapability` gates Data Link Layer State Changed (Slot Status, byte 3)
  and DRS Message Received (Link Status 2, byte 3) with the byte enable of byte 2, assigns Link
  Equalization Request instead of clearing it, and the interlock control bit reads back
  (`C26_writes_refuted`).  All other bits are right (`C26_writes_partial`).
* **C26** Link Capabilities shifts link width, ASPM support and exit latencies right instead of left, so
  they are lost and a width of 16 or more corrupts the link speed; Downstream Component Presence is
  shown one bit too low (`C26_layout_refuted`).  The secondary capability shows lanes 2n+2, 2n+3
  where 2n, 2n+1 belong, and its length covers only the first lane register (`C26_ext_layout_refuted`).
* **C27** Data_Scale of the PM capability is writable (`C27_pm_writes_refuted`); the AER First Error
  Pointer is cut to 4 bits and the correctable and fatal reporting enables are swapped
  (`C27_aer_layout_refuted`).  The length of the AER capability is 11, so the registers from Root Error
  Command on are never reached through the list.
* **C25** the automatic position of a capability is tested with `offset + length - 1` exclusive instead of
  inclusive (caps/common.py:197-200): capabilities of one register share a register, and a capability is
  put into a gap one register too short (`C25_disjoint_refuted`).  The theorems with `fits_along` exclude
  exactly this (`C25_first_fit`); it cannot happen with the library's own classes registered without
  offset (`C25_auto`, `C25_auto_walk`).
* **C25** after a deregistration the capabilities pointer is not updated, and a single remaining
  capability keeps its next pointer (`C25_walk_refuted`); the ends of the capability spaces are not
  checked (`C25_space_refuted`).
* **C23** Start BIST (bit 30 of register 3) is written under byte enable 2 instead of 3
  (function.py, also used by endpoints and bridges; `C23_bist_refuted`).  All other bits of all registers
  follow their masks (`C23_*_partial`), except those of C26, C27 and C43 within capabilities.
* **C43** the extended message data enable of the MSI capability is taken from bit 16 (the MSI enable)
  and byte 2 instead of bit 26 and byte 3 (`C43_msi_refuted`).  Registers within the length of the
  capability that its configuration does not implement return `None`, so that a configuration read of
  them raises (`C43_msi_none_refuted`).
* **C24** Reads, the accesses a write is made of and accesses to absent devices are proved in full
  (`C24_read`, `C24_accesses`, `C24_absent`); the bits written follow the masks except those of C23, C26, C27 and C43
  (`C24_write_partial`).
* **C21** A 32-bit memory BAR also claims addresses above 4 GiB whose low 32 bits fall into its window, with an
  offset that includes the upper bits (function.py:356-392; `C21_high_refuted`).  A 64-bit BAR of 4 GiB or more has
  a low mask of 0, is taken for an unimplemented BAR, and its upper half is decoded as a BAR of its own
  (`C21_large_refuted`).  Memory/IO enable bits are never consulted by `match_bar` (observation).
* **C22** `PciDevice.read_bars` saves the upper half of a 64-bit BAR from the address of the lower half
  (pci.py:1102), so the probe overwrites the upper half with the lower one and reports a wrong raw value
  (`C22_probe_refuted`).  It also never restores the command register, whose decode enables it cleared (observation).
* **C28** `MsiRegion.alloc_vectors` advances `limit` by `limit % 32` instead of rounding it up (msi.py:48-62): after an
  MSI-X table whose size is not a multiple of 32 the message data of the next MSI function is not aligned, the function
  replaces its low bits, and its interrupts set the events of another function (`C28_msi_refuted`).
  `C28_msi_partial` assumes message data aligned and below 65536; MSI-X is proved in full (`C28_msix`).
* **C29** Messages cannot be routed: `match_tlp` raises for every message, locked and atomic type before
  `match_tlp_secondary`, which knows where they belong, is asked (function.py:397-415, bridge.py:323-448;
  `C29_messages_refuted`).  C29 is proved for all other types.  Windows are those of the attributes; `C29_windows` shows that
  they are the ones the registers show, after any writes.  A host bridge gets its windows from Python directly.  Memory, IO and
  bus master enables are never consulted by bridges, and 0:0.0 is never behind a bridge (observations).  A memory or IO request
  that hits a BAR of a bridge raises in `handle_tlp`, since bridges have no handlers for them (observation).
* **C44** A completion with status CA that a bridge sends to its secondary side sets Signaled Target Abort of the primary side
  (bridge.py:450-456; `C44_send_refuted`).  Detected Parity Error is never set (observation).
* **C31** When all numbers are in use the addition fails with TypeError from `PcieId(..., None)`, not with a message of its own
  (observation).  Ports of a switch are numbered from 1.  `append_endpoint` called directly does not check for duplicates
  (observation; `C31_ports` holds whatever was appended).
* **C30** is proved for every number of ports and every schedule of the routing and arbitration tasks, for ports without BARs
  (no port of the package has any) and the TLP types of C29.  The claim is made for the model's queues; a task that raises
  (`C30_errors`: only configuration accesses to a bridge can) ends, and its queue is then no longer served.
* **C36** `unpack_us_cq` returns before the parity check when bit 3 of the request type is set: a flip of bit 14 of DWORD 2 turns a
  memory request into a configuration request that is accepted with parity checking on (`C36_cq_parity_refuted`).  Corrupted
  parity bits are detected on all four interfaces, and all other corruptions too (`C36_parity*`, `C36_cq_parity_*`).
* **C36** `Tlp_us(tlp)` has `==` where `=` is meant, so `request_completed` is not copied (`C36_copy_refuted`), and `unpack_us_rc`
  returns it as 0x40000000 (`C36_request_completed_refuted`; harmless as a truth value).  The poison bit is not carried on CQ; a
  target function above 7 makes `unpack_us_cq` raise; tags have 8 bits; a 4 DW request with an address below 4 GiB, which PCIe
  forbids, comes back with a 3 DW header.
* **C37** is_discontinue is one bit of the transaction: with several segments a frame that shares a beat with a discontinued one is
  marked discontinued (`C37_discontinue_refuted`); `C37_order` is for one segment or no discontinued frames, and
  `C37_received_partial` shows that nothing else can go wrong.  RC accepts two segments with 64 or 128 bits, but its sink then never
  sees a start and raises (`C37_narrow_refuted`).  Empty frames come back with one DWORD when straddling (`C37_empty_refuted`).  RQ with
  60 bits of tuser carries four bits of the sequence number (`C37_seq_refuted`).  `CqSource` and `CqSink` place first and last byte enables of 512 bit interfaces by
  segment (`seg*4`, interface.py:932, 1059), where `RqSource` counts packets (`sop_cnt*4`, 538), as the product guide has it: the byte enables of the first
  packet that starts in a beat, behind the end of another one, are in the second one's place (`C37_layout_refuted`).  `C37_layout_partial` has the positions of everything
  else, compared with the tables of the product guides.  A reset drops the transaction on the bus
  (observation; not modelled).
* **C38** `func_num` of the H-tile is asserted to be two bits wide per segment but is shifted by three: in the second segment function 2
  raises (`C38_func_refuted`).  `tlp_abort` of the P-tile is never driven or sampled (`C38_abort_refuted`).  The sinks go by the length in
  the header and ignore `empty`: a TLP with less data than announced arrives longer (`C38_length_refuted`), an H-tile frame without data
  with three DWORDs (`C38_empty_refuted`).  Payloads that are no whole number of DWORDs raise in the conversion
  (`C38_partial_dword_refuted`).  The theorems are for TLPs with the payload they announce, function numbers that fit, and buses with the
  signals that are not optional.
* **C32** holds for every tree of functions (listed by number, every device with a function 0 and with its multifunction bits set, one device
  below a downstream port) with up to 256 buses; with more `enumerate` ends with ValueError from `PcieId` (`C32_limit`).  Enumerating
  twice appends the devices again (observation).
* **C33** fails past 4 GiB (`C33_refuted`): nothing checks the limits of the 32-bit window.  A 64-bit BAR of 2 GiB that is not prefetchable is put
  at 4 GiB, from the default bases, without a report, and the bridges above get a truncated window that does not contain it (pci.py:1200-1204,
  1288).  32-bit BARs that do not fit raise OverflowError from `int.to_bytes`.  `C33_contained_partial` says the rest: whenever what is handed out stays
  below the top, all windows contain what is below; `C33_space` gives a sufficient size.
* An endpoint that shares its bus with a bridge (`C33_stray_refuted`): the base of the bridge's window starts right behind the endpoint's BAR and is not
  aligned, the register holds whole granules only, so the window covers the endpoint's BAR (pci.py:238-243).  Requests for the endpoint from below that bridge are
  then not forwarded up, requests from above are claimed by both.  `C33_exclusive`: the usual topologies (bridges only beside bridges) are safe.
* The host bridge's limits are exclusive ends, but `upstream_bridge.*_limit` (rc.py:890-896) is used as the last address included (bridge.py:283-297).
* With a base of zero and nothing below a bridge the limit is -1: struct.error for I/O and prefetchable memory, a window over all of the first 4 GiB for memory
  (excluded by `0 < lim k l`).
* **C34** is false (`C34_refuted`): a root port is lowered for a function right below it, but functions found before keep the larger size,
  and nothing is lowered for functions below a switch.  `C34_partial` says exactly when the sizes are consistent; with the default of 128
  bytes they are (`C34_default`).  A root port that does not support the host's size raises ValueError (excluded by `good_system`).
* **C45** holds.  A tag chosen by the user is only checked against the range in force (us_model.py:1049, usp_model.py:1189) if the request is sent directly, not if it
  comes from the queue: `C45_user_tags_refuted` has a request with tag 200 sent while only 32 tags are allowed, which is refused with an assertion if credits are there.
* **C46** holds in full.  The completed flag is computed right but lost on the way to the user (C36).
* **C48** The aperture is computed from the BARs of `functions[0]`, whichever function claims the request (us_model.py:888, 906-910; usp_model.py:1043, 1062-1066;
  `C48_aperture_refuted`).  For memory requests (UltraScale) and IO requests (UltraScale+) only the bus of `completer_id` is set, so that the user sees function 0
  (`C48_completer_refuted`).
* **C49** `cpld_credit_count` counts the payload of requests, so reads reserve nothing and the headers of completions are not counted: completions of admitted
  requests are lost when the user does not take completions fast enough (`C49_space_refuted`).  The user is told (`C49_told`).
* **C50** `tag_release` is never set (us_model.py:1099-1100, usp_model.py:1239-1240): a request that finds no free tag waits for ever, though all tags come back
  (`C50_tag_refuted`); later requests pass it (`C50_order_refuted`).  Credits are taken for the payload of requests and given back for the payload of completions: every
  IO write loses one (`C50_credit_refuted`).  `tag_available_count` counts 256 tags with extended tags, `get_free_tag` looks at 64 on UltraScale and returns
  `None`: the 65th request ends `_run_rq_logic` with an exception (`C50_extended_refuted`).
* `cfg_fc` outputs of UltraScale+ read `rx_credits_consumed`, which does not exist (usp_model.py:1466-1471; observation).
* **C51** After deregistrations (C25) the host finds a capability with identifier 0 that does not exist (`C51_phantom_refuted`), or, if the remaining capability is
  registered again where the removed one was, follows a pointer to itself for ever: `walk_capabilities` has no guard against loops (pci.py:686-697,
  `C51_loop_refuted`), and enumeration never ends.
* **C52** All four vendor functions register their extended capabilities (AER, secondary PCI Express) with `register_capability` instead of
  `register_extended_capability` (us_model.py:89, 100, usp_model.py:128, 135, s10_model.py:78, 84, ptile_model.py:91, 97), so they end up in the legacy list beyond its
  last register: every extended configuration register reads as 0 and the host never finds them (`C52_extended_refuted`).  For physical functions 2 and 3 UltraScale+
  and Stratix 10 subtract 2 and 3 instead of 1 from the number of MSI vectors (usp_model.py:830, 847, s10_model.py:556, 573): with `pf2_msi_count=2` one vector is
  advertised, with the default of 1 two (`C52_msi_refuted`).
* **C53** The Intel models take every frame that leaves the receive queue off the count of completions, requests included (s10_model.py:760-761, ptile_model.py:902-903):
  however small the completion buffer, any number of completions is accepted (`C53_buffer_refuted`); the excess is at most the number of requests that have left
  (`C53_buffer_partial`).  `frame.func_num` of a request is the function number of the requester instead of the function addressed (s10_model.py:674, 695,
  ptile_model.py:820, 841; `C53_func_refuted`), and a requester with function number 4 or more ends the Stratix 10 RX source with an OverflowError
  (`C53_func_raises_refuted`).  Requests of the user are sent although bus mastering is disabled (`C53_master_refuted`), unlike in the UltraScale models.
* **C54** `_run_cfg_out_logic_ltile` shifts the AER interrupt message number by 28 instead of 24 (s10_model.py:972): the user logic sees another number
  (`C54_ltile_refuted`), the root error enables in bits 29 to 31 are overwritten (`C54_ltile_enable_refuted`), and a number of 16 or more does not fit the 32 bit
  signal, which ends the coroutine with an exception (`C54_ltile_width_refuted`).  All other fields of the three tiles are right.
* **C55** `cfg_function_status` shows the bus master enable in the bits of I/O and memory space enable (`0x07 << k*4`, us_model.py:1241-1242, usp_model.py:1392-1393;
  `C55_status_refuted`).  The credits shown wrap at the width of the signals: with 256 headers left the user logic sees none (`C55_fc_wrap_refuted`).  UltraScale+, selection 2
  reads `rx_credits_consumed`, which does not exist (usp_model.py:1466-1471): the flow control outputs freeze for good (`C55_fc_consumed_refuted`).  A management access to a
  function that does not exist ends the coroutine, no later access is ever done (`C55_mgmt_dead_refuted`).
* **C56** A request the host does not allow (MSI not enabled, number not enabled; Stratix 10: also a function that does not exist) raises in the coroutine of the
  interrupt interface (us_model.py:1488, usp_model.py:1614, s10_model.py:838): it gets no answer and no later request is served; `cfg_interrupt_msi_fail` and
  `cfg_interrupt_msix_fail` are never set (`C56_us_dead_refuted`, `C56_s10_dead_refuted`).  With an MSI and an MSI-X request in the same cycle the acknowledgement of
  the MSI stays for as long as the MSI-X waits (`C56_us_once_refuted`).  UltraScale+ shows MSI enable and the message count of two of its four functions
  only (`range(min(len(self.functions), 2))`, usp_model.py:1601, 1620; `C56_usp_enable_refuted`).
* **C57** `enable_bridge` calls `set_master` without `await` for a bridge that is enabled already (pci.py:546): the coroutine never runs.  A bridge that was enabled
  by itself stays without bus mastering when a function below it is enabled, so that the function's requests are not passed upstream (`C57_upstream_refuted`).
  `enable_cnt` may become negative: a function that is disabled once too often is reported as disabled after the next `enable_device`, though it decodes
  (`C57_count_refuted`).  `set_mps`, `set_readrq` and `configure_extended_tags` write the dword that device control shares with device status, and so clear the error
  bits that the device has recorded (pci.py:772, 788, 800; `C57_status_refuted`).
* **C58** The P-tile model looks at the lanes of the port only if the link width is given (`is not None`, ptile_model.py:575): for port 1 it chooses x16 and then
  refuses its own choice, though x8 is possible (`C58_completes_refuted`).  `int(1e9/freq)` ns (ptile_model.py:744) rounds the period down: 350, 400 and 450 MHz
  clocks run at 500 MHz, 175 at 200, 225 at 250 (`C58_clock_refuted`).  P-tile settings are accepted whose interface is slower than the link (3, x16, 256 bits,
  250 MHz and most generation 4 settings; `C58_bandwidth_refuted`).  The UltraScale+ model accepts RQ, CQ, CC and four-TLP straddling on 256 bits: the assertions are
  nested in the check for less than 256 bits (usp_model.py:759-765; `C58_straddle_refuted`).  The link status register never shows speed and width: nothing sets
  `current_link_speed` and `negotiated_link_width` (`C58_status_refuted`).
* **C59** Put together, three of the defects above make requests go astray in a tree that the host has set up with its own default bases: an address above 4 GiB that was
  assigned to one function reaches another, whose 32-bit BAR equals the lower half of it (function.py `match_bar` compares the low 32 bits only; `C59_high_refuted`);
  a BAR of 4 GiB or more gets an address and a window, but its function does not decode it, as the lower mask is zero (`C59_large_refuted`); an expansion ROM gets an
  address that no function decodes (`C59_rom_refuted`).
* **C60** A function cannot reach another function of the same device, nor anything else on the same link: the request goes up to the port, which finds the address behind
  itself and drops it, as nothing sends a TLP back where it came from (bridge.py:430-448, device.py:157-160; `C60_sibling_refuted`).
* **C61** For the same reason, a function that reads the BAR of another function of its device gets no completion, and the access ends with an exception after the timeout
  (`C61_sibling_refuted`).
* **C68** The credits that Stratix 10 shows wrap at the width of the signals: with 256 headers left it shows none (s10_model.py:775-789; `C68_s10_wrap_refuted`).  P-Tile shows
  credits without limit as a limit of 0, so a user logic that goes by the limit alone never sends (ptile_model.py:922-944; `C68_ptile_unlimited_refuted`).
* **C69** `scan` waits for function 0 only: another function that is not ready is entered as one of vendor 1 with the device number 0xffff (pci.py:171-182; `C69_function_refuted`).
  Without software visibility the host does not repeat the request, so a device that is not ready counts as absent (rc.py:584-589; `C69_invisible`).
  `config_write` does not look at the completions (rc.py:643), so a write that is refused is lost without notice (`C69_write_blind`, `C69_write_refuted`).
* **C70** A low pulse of the reset input that lies between two clock edges during the 100 ns ends the wait instead of starting it again, so reset is released at the
  next clock edge (us_model.py:957-960 and the others; `C70_length_refuted`).  The outputs are low until the second clock edge, whatever the input is, so the user's
  logic sees no reset at first (us_model.py:397, 948-952; `C70_start_refuted`); `reset_status_n` of P-Tile starts at 0, which is asserted.
  Before the first clock edge an UltraScale device without `cfg_config_space_enable` takes configuration requests though it is in reset (us_model.py:720-721;
  `C70_config_refuted`).
* **C71** `clear` empties the queue but leaves the occupancy counters (xilinx/us/interface.py:179-183, intel/s10/interface.py:268-272, intel/ptile/interface.py:294-298): a source that
  was full then never takes a frame again (`C71_clear_refuted`), and a sink that was full keeps `tready` low.  `full` compares with `>`, so a queue holds one frame more than its limit
  (`C71_limit_refuted`; the device models set 2), and a sink up to two words of the bus more
  (`C71_sink_refuted`), an Intel sink another word for each cycle of the ready latency (`C71_intel_refuted`: 7 frames where the limit is 2).
* **C72** `idle()` of a source is true between `send` and the next edge of the clock, as a transaction in `drive_obj` is overlooked (`C72_idle_refuted`).  `wait()` returns at once if `send` was called
  at the edge at which the source finds that it has nothing to do, before it (`C72_wait_refuted`; Intel sources do so at every edge while idle).  Both are right if no edge comes between `send` and the
  turn of `_run` and, for `idle()`, just after an edge.  A reset takes the beat on the bus away but not the rest of its frame, which goes out afterwards (`C72_reset_refuted`).
  `clear` sets the event while a frame that `_run` has taken still goes out (`C72_clear_refuted`).
  `idle()` of a sink is true in the middle of a frame that began behind the end of another one in the same word (`active = False` in the loop over the segments, us 694, s10 634, ptile 670; `C72_sink_idle_refuted`).
* **C73** holds.  `clear_pause_generator` leaves `pause` as it is, so a stream that was paused then stands still until `pause` is set (`C73_clear_refuted`; not part of the statement).

## Seeded errors

`seeded/LOG.jsonl` has one line for each edit of the model that was tried in a scratch copy.  `theorems_failed` are the theorems that no longer follow after the edit with their proofs as they are: every
lemma whose proof script stops is taken as given, and the theorems that depend on one are listed.  A script may also stop where the statement is still true of the edited model, so a theorem in
this list is not thereby shown to be false of it; an empty list does show that no theorem notices the edit.  Lines that say "the defect is repaired" are edits towards what
the code should do, and are there to see that the refutation notices.  An example of a theorem that was listed although it was too weak: the counter of what left the bus in `ModelIdle`
was kept by the source itself, so a source that overwrites a word which was not taken counted it as taken.  `z_count` now looks at the bus only.
