# Formal model of li_can_slv in Coq 8.16.1

The code in /repo is C; it is read as text only. This file says what is modelled, how each
property is stated and proved, what is trusted, and what was found.

## Conventions

* Words are `N` with explicit wraps (`u8`, `u16`, `u32` = modulo 2^8, 2^16, 2^32) wherever the C type
  can wrap; table positions, object numbers and ring indices are `nat`.
* A C function that changes globals is a function returning the new state; its return code is part of the result.
* Loops are structural recursion, folds, or recursion on fuel with a distinct out-of-fuel outcome.
* Accesses outside an array are a distinct outcome (`Undef`/`None`), never a default value.
* Hardware, port functions, application callbacks, conversion functions and validators are parameters (functions
  universally quantified in the theorems) or arguments of the events; observable effects (frames, callbacks, hardware
  calls) go to a log.
* `Model` files hold definitions with the lines they model, `Spec` files the independent specification, `Props` files the
  property theorems with an `Example` that meets their hypotheses and `Print Assumptions`; everything else is lemmas.
* A property the code does not have is recorded by a theorem with the suffix `_refuted` (a reachable state or history in
  which it fails), next to the part that holds (`_partial`).

## Trusted base

* Coq's kernel (8.16.1) and its standard library. Modules loaded: List, Arith, NArith, ZArith, Lia, Bool and the Zify
  instances. No other library.
* `Print Assumptions` answers "Closed under the global context" for every theorem listed in MANIFEST.json: no axiom is
  used, neither of the standard library nor of ours. No `Axiom`, `Parameter`, `Admitted`, no functor, no plugin, no
  kernel flag. (`vcheck` lists the `Under_rel` constants of `Coq.ssr.ssrunder`; they are loaded by the standard
  library's Zify/Lia files and no theorem depends on them.)
* The correspondence between the C text and the model files is by reading: each definition cites file and lines. It is not
  machine checked. seeded/LOG.jsonl records edits of the model that imitate bugs and which theorems reject them.
* Semantics of C assumed by the model: 8-bit bytes, fixed-width types, little-endian 32-bit target where a structure is
  viewed as bytes (InfoModel), both byte orders where it matters (ConvModel); the compiler does not reorder accesses to the
  queues (AsyncModel, SnapModel treat each access as one step in program order).

## What is modelled

| Coq file | C source | build |
|---|---|---|
| NodeModel | config/io_can_config.c (init, add_module, set_module, module numbers and types, acceptance masks, define objects, silent, critical and active), core/io_can_main.c and arch/canpie_adapter/io_can_main_hw.c (message objects, transmission, send loop), core/io_can_main_handler.c, sync/io_can_sync.c and io_can_sync_handler.c (receive, transmit, process image check, times), sys/io_can_sys.c (all commands) | OUTER, number and type change, factory reset; ASYNC, SYS_OBJ2, CHECK_MODULE_NR_AND_DLC, CHECK_DEFINE_OBJECT as parameters |
| ErrModel | error/io_can_error.c, macros of io_can_errno.h | with and without error queue |
| ErrIrqModel | can_error_sys_error_send_full (error/io_can_error.c:181-334) as memory accesses of the main program interrupted by complete calls | with and without error queue |
| SwIrqModel | can_config_set_module_silent_awake, can_config_sync_off/on (transmit part), can_main_synchron_tx_data_off/on as memory accesses of the main program, interrupted by can_main_sync_send_process_data and complete switches | LI_CAN_SLV_SYNC |
| NodeServModel | can_main_hw_handler_rx without reconnect (arch/canpie_adapter/io_can_main_hw_handler.c:111-161), can_async_handler_rx and can_async_handler_data_rx (async/io_can_async_handler.c:75-255) | ASYNC with tunnel |
| RandModel | li_can_slv_rand and li_can_slv_seeding (sys/io_can_sys.c:868-885), called at 144 and 294-297 | LI_CAN_SLV_USE_SYS_RANDOM_STATUS_ACKNOWLEDGE |
| RxPauseModel | io_can_main_hw_handler.c 113-136, io_can_mon_hw_handler.c 102-121, io_can_reconnect.c 892/1028: the pause of the reception (optional switch) | one tick is one millisecond |
| LockModel | io_can_main_hw_handler.c 182-272: the lock around the error handler (optional switch), nested calls and threads | body is begin and end only |
| DrainModel | core/io_can_main_handler.c can_main_handler_tx and its trigger in io_can_port.h:68 | CANpie adapter, RECONNECT |
| NumIrqModel | config/io_can_config.c:1781-1926, core/io_can_main.c:427-454, access by access, with requests and data frames between | last module of the table, no shared objects |
| XBufIrqModel | xload_buffer_get_byte (xload/li_can_slv_xload_buffer.c:114-134) as memory accesses of the main program interrupted by complete calls of dload_add_byte_to_buffer and dload_remove_bytes | LI_CAN_SLV_DLOAD_BUFFER_INTERNAL |
| NodeUkwnModel | can_config_add_ukwn_module (config/io_can_config.c:1036-1051) and its use in lcsa_start (api/li_can_slv_api.c:108-116) on the node model | LI_CAN_SLV_UNKNOWN_MODULE |
| NodeTunModel | the tunnel (TunnelModel) and the node (NodeModel, NodeServModel) together: io_can_async.c:363-385, 472 and can_async_handler_data_rx | LI_CAN_SLV_ASYNC_TUNNEL, OUTER |
| DlQueueModel | control receive queue (AsyncModel) and download protocol (XloadModel) together: io_can_async.c:260-321 and can_async_rx | CAN_ASYNC_CTRL_RX_QUEUE; the consumer is the port's |
| NodeTimeModel | li_can_slv_sync_set_process_time_valid_fnc and the functions it gives out (sync/io_can_sync.c:1088-1152, 1395-1478) | all |
| LookModel | lookups and getters of io_can_config.c, identifier decoding of the handlers | all |
| AsyncModel | async/io_can_async.c control and data queues, async/io_can_async_handler.c | ASYNC |
| SnapModel | the copy under interrupt lock in can_sync_tx_data_main | all |
| TunnelModel | tunnel of async/io_can_async.c | ASYNC_TUNNEL |
| XBufModel | xload/li_can_slv_xload_buffer.c | internal buffer |
| XloadModel | xload/li_can_slv_xload.c, dispatch of control messages in io_can_async.c | DLOAD, ULOAD |
| InfoModel | xload/li_can_slv_xload_info.c, lcsa_init and lcsa_start of api/li_can_slv_api.c | XLOAD_INFO |
| InitModel | li_can_slv_init of core/io_can.c | all steps, any outcomes |
| ConvModel | verify/io_app_conv/io_app_convc.c | both byte orders |
| PerIrqModel | sync/io_can_sync.c: li_can_slv_sync_get_process_periode, li_can_slv_sync_trigger_process_periode, interrupted by can_sync_rx_process_main | all |
| ReconModel (C81: ReconHookSpec) | core/io_can_reconnect.c, arch/canpie_adapter/io_can_main_hw_handler.c, lcsa_start | RECONNECT, RECONNECT_MAIN_NODE, with and without CHECK_LEC |
| MonModel | sync/io_can_sync.c and io_can_sync_handler.c with a monitor controller (requests, data, own frames, check of the image), fixed module table | MON, CHECK_MODULE_NR_AND_DLC, without MAIN_MON |
| MonCfgModel | core/io_can_mon.c, canpie_adapter/io_can_mon_hw.c, io_can_mon_hw_inline.h, and the monitor's part of can_config_set_module, number changes and can_sync_handler_rx_mon | MON, without MAIN_MON |
| DualModel | mode and rate of both controllers: core/io_can.c, io_can_main.c, io_can_mon.c, the driver calls of core/io_can_reconnect.c, can_config_set_baudrate, lcsa_start, the baud rate message, canpie_adapter/*_hw.c | MON, RECONNECT |

## Properties: model, proof, status

* **C01** Process image verdict equals what was received in the cycle. NodeModel/NodeSpec. Events of the whole node; the verdicts in the log are compared with what NodeSpec computes from the received frames (NodeSync, NodeImage: refinement by induction over the history). The first cycle and a module woken up inside the cycle are refuted. *partial*: `C01_image_verdict_partial`, `C01_image_verdict_short_partial`, `C01_verdict_callback_partial`, `C01_first_cycle_refuted`, `C01_woken_module_refuted`.
* **C02** An over-long process request suppresses the evaluation of its cycle. Same history; NodeSpec emits nothing for a cycle opened by DLC > 1 and judges the next one by its own receptions. *proved*: `C02_long_request_suppressed`, `C02_next_cycle_fresh`.
* **C03** Valid timestamps are the times of the last valid images. Same history; valid times are compared with the times of the verdicts computed by the specification. *proved*: `C03_valid_times`, `C03_hook_iff_all_valid`, `C03_only_at_requests`.
* **C04** Process period and cycle time stay within the configured maximum. Period and cycle time with explicit mod 2^32; invariant over histories (NodePres). *proved*: `C04_period_bounded`, `C04_period_is_distance`, `C04_cycle_time_bounded`, `C04_cycle_time_set`.
* **C05** Each process request transmits every enabled synchronous object exactly once, in order. NodeTx/NodeSend: send_reg/send_end and the send loop on fuel with a distinct Hang outcome; invariant that the chain visits exactly the enabled objects. *proved*: `C05_every_enabled_object_once`, `C05_terminates`.
* **C06** Sending process data terminates after every configuration history. Same model; refuted by a history with a number change (Hang for every fuel); positive statement without such changes. *partial*: `C06_terminates_refuted`, `C06_plain_history_partial`, `C06_calm_history_partial`, `C06_type_change_refuted`.
* **C07** A silent module transmits nothing synchronous or system related. NodeSilent: every transmit path goes through the log; invariant that no frame with an identifier of the silent module is added. *partial*: `C07_silent_module_sends_nothing_partial`, `C07_after_number_changes_refuted`, `C07_calm_history_partial`.
* **C08** Silent/awake is a lossless round trip for the synchronous configuration. NodeSilent: sync_off/sync_on; equations on table and send register, frame conditions, round trip. *proved*: `C08_switch`, `C08_no_delivery_while_silent`, `C08_round_trip`.
* **C09** Synchronous data frames with a wrong module number or DLC have no effect. NodeRx: can_sync_rx_data_main with the check enabled; case theorem in every reachable state. *proved*: `C09_wrong_frame_ignored`.
* **C10** Accepted synchronous data reaches exactly its own object. Same function; functional update statement with frame condition. *proved*: `C10_accepted_frame_effect`, `C10_accepted_identifier`.
* **C11** A transmitted synchronous frame is an untorn snapshot of the application data. SnapModel: word copies with interrupt lock, writers blocked while locked; every schedule yields a snapshot of one moment. *proved*: `C11_untorn`, `C11_ends`.
* **C12** CAN identifiers are collision free and decode to their module. LookModel: arithmetic on identifiers, injectivity and ranges, decode equations. *proved*: `C12_at_most_7FF`, `C12_collision_free`, `C12_decoded`.
* **C13** System messages are accepted only with DLC 8. NodeModel can_sys_msg_rx; DLC other than 8 leaves everything but the error report unchanged. *proved*: `C13_wrong_dlc_only_reported`.
* **C14** Messages for unknown module numbers are ignored. Same function; unchanged state. *proved*: `C14_unknown_number_ignored`, `C14_unknown_command_only_reported`, `C14_unconfigured_number_refuted`.
* **C15** Status request is answered by the addressed modules. Same; log equation against a list of expected frames. *partial*: `C15_status_request_partial`, `C15_listen_only_refuted`, `C15_duplicate_refuted`.
* **C16** Version request is answered with the port's version data. Same; log equation and byte decoding. *proved*: `C16_version_request`, `C16_version_bytes_decode`.
* **C17** The module number changes only on an authorised direct request. Step theorem over every frame; the table entry that changed determines number, serial and command of the frame. *proved*: `C17_identifiers_follow`, `C17_number_change_authorised`.
* **C18** Every node can be addressed by its serial number. Positive below 2^24, refuted for every larger serial number. *partial*: `C18_announced_serial_accepted_partial`, `C18_wrong_serial_ignored_partial`, `C18_large_serial_refuted`.
* **C19** Baud rate change is broadcast-only and leaves the node in its previous mode. can_sys_msg_rx with the table of rates and every hardware outcome. *proved*: `C19_direct_refused`, `C19_broadcast`.
* **C20** Stay-silent/awake needs the serial number, type and number of the module. Step safety over every operation. *proved*: `C20_needs_number_serial_and_type`, `C20_only_that_module`, `C20_broadcast_refused`, `C20_nothing_else_changes_it`.
* **C21** First-request callbacks run at most once. NodeFirst: number of callback events in the log of every history. *proved*: `C21_first_process_request`, `C21_first_status_request`, `C21_at_most_once`.
* **C22** System time messages deliver the encoded time. Decode equation, two's complement. *proved*: `C22_time_delivered`.
* **C23** Errors are reported first-in first-out. ErrModel/ErrSpec: ring buffer refined to an unbounded queue while it is not filled (Ring.v). *proved*: `C23_errors_fifo`, `C23_nothing_lost`.
* **C24** The error queue survives overflow. Same model, out-of-bounds writes a distinct outcome; refuted, exact behaviour up to the first overflow. *partial*: `C24_overflow_refuted`, `C24_overflow_partial`.
* **C25** Peeking an error returns the entry a reader would get. Same model; refuted after reads, proved before any read. *partial*: `C25_peek_refuted`, `C25_peek_partial`.
* **C26** Error frames are faithful and rate limited. NodeModel with ErrModel; at most one error frame per request, byte decoding. *proved*: `C26_one_error_per_request`, `C26_error_bytes_decode`.
* **C27** 16-bit service codes expand without loss. Bits.v: N.land, N.shiftl; the whole 16-bit space by arithmetic. *proved*: `C27_codes_lossless`, `C27_codes_injective`, `C27_read_back`.
* **C28** Modules are added to consecutive table positions up to the maximum. NodeCfg: add_module over the table; induction on histories. *proved*: `C28_positions`, `C28_refused_when_full`.
* **C29** Module numbers are unique after any sequence of additions. NodeCfg: invariant NoDup over configured numbers. *proved*: `C29_pairwise_different`, `C29_number_given`.
* **C30** Module numbers stay unique after number changes. NodeNum: refuted by a witness, proved for histories that ask only for free numbers. *partial*: `C30_unique_refuted`, `C30_fresh_numbers_partial`.
* **C31** Number changes of unknown modules are refused. Undefined outcome for every unknown module; for known modules, after every sound history (C68), the call returns and changes exactly that number. *partial*: `C31_unknown_module_refuted`, `C31_known_partial`.
* **C32** The receive filter accepts every message for the node's modules. NodeHw: acceptance mask over any list of numbers; bitwise proof. *proved*: `C32_after_addition`, `C32_after_number_change`, `C32_kept`.
* **C33** Message objects are never shared. NodeMo: used flags of message objects; distinctness invariant, error when exhausted. *proved*: `C33_addition`, `C33_not_shared`, `C33_kept`, `C33_none_left`.
* **C34** Received frames are dispatched to the module owning the message object. NodeMo: registration table; lookup theorem. *proved*: `C34_owner`, `C34_dispatched`, `C34_unregistered`.
* **C35** Asynchronous control messages are queued first-in first-out for awake modules only. AsyncModel/AsyncSpec: control queue refined to a bounded list. *proved*: `C35_bounded_fifo`, `C35_nothing_lost`.
* **C36** Asynchronous data is transmitted in order without loss or duplication. Same for the data queue, controller outcomes universally quantified. *proved*: `C36_bounded_fifo`, `C36_exactly_once`.
* **C37** The asynchronous transmit queue tolerates preemption. AsyncModel: increments of the fill count at memory-access granularity; refuted with a schedule, proved for uninterrupted increments. *partial*: `C37_preemption_refuted`, `C37_count_refuted`, `C37_preemption_partial`, `C37_uninterrupted_partial`.
* **C38** The download buffer is a faithful bounded FIFO. XBufModel/XBufSpec: ring buffer refined to a bounded list, index invariant. *proved*: `C38_buffer_fifo`.
* **C39** Buffer checkpoint and rollback replays the bytes. Same; proved without additions in between, refuted with one. *partial*: `C39_rollback_partial`, `C39_rollback_refuted`.
* **C40** Hexadecimal numbers in the download stream are decoded exactly. Conversion and stream readers; decode of every spelling. *proved*: `C40_hex_value`, `C40_hex_spelling`, `C40_hex_stream`.
* **C41** Component names survive the six-bit packing. XloadModel: name decoding against the encoder of XloadSpec. *proved*: `C41_short_version`, `C41_upload_info`, `C41_long_version`, `C41_start_request`.
* **C42** A downloaded block reaches the application byte for byte. XloadModel/XloadRun: induction over the messages of a block and over the blocks, handlers are arbitrary programs. *proved*: `C42_download`, `C42_wrong_count`, `C42_too_long`, `C42_byte_count_refuted`.
* **C43** A running download cannot be disturbed by another request. XloadModel; refuted by histories, proved for unrelated messages mixed in. *partial*: `C43_version_requests_partial`, `C43_rejected_version_refuted`, `C43_info_request_refuted`, `C43_second_start_refuted`, `C43_upload_request_refuted`, `C43_unrelated_messages_partial`, `C43_half_request_partial`.
* **C44** Uploaded data is reassembled exactly by the receiver. XloadModel upload; first block proved, later blocks and the wait refuted. *partial*: `C44_first_block_partial`, `C44_reassembly_partial`, `C44_prefix_partial`, `C44_second_block_refuted`, `C44_wait_refuted`.
* **C45** Handlers are set once. Registrations; induction over histories. *proved*: `C45_first_handler`, `C45_never_replaced`, `C45_errors`.
* **C46** Persistent download information is never half-updated. InfoModel: the 38 bytes of the structure, power loss after any byte store; the checksum is an arbitrary function where the theorem allows it. *partial*: `C46_completed_partial`, `C46_power_loss_partial`, `C46_mode_update_partial`, `C46_component_refuted`, `C46_baud_rate_refuted`.
* **C47** A completed download is acknowledged exactly once after the restart. InfoModel with lcsa_init and lcsa_start; histories of resets. *proved*: `C47_exactly_once`, `C47_not_pending`, `C47_operational`, `C47_power_loss_refuted`.
* **C48** The tunnel serves one peer at a time. TunnelModel/TunnelSpec: state machine; safety over histories, refuted for the denied open. *partial*: `C48_acknowledge_partial`, `C48_granted_partial`, `C48_busy_partial`, `C48_owner_partial`, `C48_port_refuses_partial`, `C48_close_partial`, `C48_flow_control_partial`, `C48_own_messages_partial`, `C48_not_open_partial`, `C48_denied_refuted`, `C48_foreign_close_refuted`.
* **C49** Tunnel bytes are sent in order. Same; the frames decode to the bytes that were put, by induction over histories. *proved*: `C49_order`, `C49_delivered`.
* **C50** A tunnel session does not leak bytes of the previous one. Same; refuted, proved for sessions that start after everything was sent. *partial*: `C50_refuted`, `C50_clean_partial`.
* **C51** During reconnect the node only listens. ReconModel/ReconSpec: state machine over events with arbitrary driver outcomes; invariants over histories (ReconInv), observations judged by small automata of ReconSpec. *partial*: `C51_begins_partial`, `C51_stopped_refuted`, `C51_listens_only_partial`, `C51_never_operational_partial`, `C51_rates_partial`, `C51_rate_set_partial`, `C51_frames_ignored_partial`, `C51_end_partial`, `C51_end_refuted`.
* **C52** A start-up search that hears traffic keeps the rate it heard it on. Same; the rate at reception is kept until the search ends; three refutations. *partial*: `C52_rate_kept_partial`, `C52_ends_partial`, `C52_refuted`, `C52_race_refuted`, `C52_reported_refuted`.
* **C53** Initialisation reports the first failure and runs nothing after it. InitModel: steps with arbitrary outcomes; first-failure theorem. *proved*: `C53_first_failure`, `C53_success`, `C53_after_failure_refuted`.
* **C54** Conversion codes are lossless and endian correct. ConvModel on byte lists with both byte orders; values, fields and buffers universally quantified. *partial*: `C54_bits_partial`, `C54_nibbles_partial`, `C54_uint16_partial`, `C54_uint32_partial`, `C54_sint20_partial`, `C54_uint12_rx_partial`, `C54_uint12_tx_partial`, `C54_uint12_stack_refuted`.
* **C55** Type and number identify a module consistently. LookModel lookups; equivalence with list search. *partial*: `C55_by_type_partial`, `C55_by_number_partial`, `C55_by_type_and_number_partial`, `C55_lookups_agree_partial`, `C55_getters_partial`, `C55_getters_range_partial`, `C55_only_configured_refuted`.
* **C56** Main and monitor disagreement invalidates the image. MonModel: both controllers' handlers over one state; invariant that ties counters, flags and buffers to the cycle (the events since the last request that ended one); verdicts iff agreement, bytes sent; refuted for lost requests, foreign frames, a writing application, partial conversions. *partial*: `C56_verdicts_partial`, `C56_image_partial`, `C56_sent_bytes_partial`, `C56_refuted`, `C56_foreign_refuted`, `C56_application_refuted`, `C56_stack_refuted`.
* **C57** Without an error queue the newest error is the pending one. ErrModel in the build without queue. *proved*: `C57_newest_error`.
* **C58** A successful start leaves the stack running and a failed one reports it. InfoModel start function; refuted for the build with reconnect. *partial*: `C58_start_result_partial`, `C58_reconnect_refuted`.
* **C59** Partly filled tunnel messages wait for more bytes, but not for ever. TunnelModel; refuted. *partial*: `C59_hold_refuted`, `C59_never_flushed_refuted`, `C59_flush_partial`.
* **C60** Putting a byte into the tunnel returns. TunnelModel putc with the controller's behaviour as argument. *partial*: `C60_returns_partial`, `C60_refuted`.
* **C61** A search settles on a rate only after activity on it. ReconInv: activity computed by ReconSpec from the history; proved without, refuted with CHECK_LEC. *partial*: `C61_settles_partial`, `C61_refuted`.
* **C62** A start-up search without traffic ends with the configured rate. ReconProps: induction over the calls in time; refuted at the wrap of the clock. *partial*: `C62_timeout_partial`, `C62_refuted`.
* **C63** Version and upload info requests get exactly one answer, and the right one. Model of the request functions; theorems over every handler program that ends and every state reached by a history. *proved*: `C63_short_version`, `C63_long_version`, `C63_upload_info`, `C63_no_handler`.
* **C64** Control messages to absent or silent modules have no effect. Same model; equality of the effect of two histories, one with the message and one without. *proved*: `C64_no_effect`, `C64_unknown_code`.
* **C65** A block of the announced size fits into the buffer. Same model; the announced number is read from the message and compared with the block format of C42. *proved*: `C65_announced`.
* **C66** Uploads keep the requested pause between messages. Same model with the clock readings as a list; induction over the readings. *partial*: `C66_call_partial`, `C66_request_partial`, `C66_wrap_refuted`.
* **C67** The baud rate after a restart. Model of lcsa_init on every memory image. *proved*: `C67_baud_rate`, `C67_after_reset`.
* **C68** No frame sequence leads to undefined behaviour. Invariant over the tables, the message objects and the transmit register, kept by every operation in a Hoare logic that excludes undefined behaviour and counts error reports. *partial*: `C68_calm_returns_partial`, `C68_no_undefined_partial`, `C68_returns_partial`, `C68_bus_only_refuted`, `C68_type_change_refuted`.
* **C69** A module type changes only by an authorised message, and takes effect completely. Effect of the change-type message on the tables for every reachable state; transmission through an invariant over histories that change numbers and types only in states where the code copes with it. *partial*: `C69_authorised_partial`, `C69_effect_partial`, `C69_sends_partial`, `C69_silent_receives_refuted`, `C69_identifier_zero_refuted`, `C69_not_received_refuted`, `C69_deaf_refuted`, `C69_not_supervised_refuted`.
* **C70** A second initialisation starts from scratch. Model of the shut-down; comparison of the state after a second initialisation with that after a first one. *partial*: `C70_tables_partial`, `C70_sends_refuted`, `C70_silent_refuted`, `C70_receive_refuted`, `C70_full_refuted`, `C70_hooks_refuted`.
* **C71** Module numbers can be changed any number of times. Counting the free message objects over every history; forward execution of a number change. *partial*: `C71_possible_partial`, `C71_takes_partial`, `C71_bounded_refuted`, `C71_half_refuted`, `C71_deaf_refuted`.
* **C72** The monitor takes every frame of its modules once and for the right module. Invariant that gives every message object of the monitor one purpose, kept by additions (also failing ones) and number changes; dispatch from the invariant. *proved*: `C72_added`, `C72_number`, `C72_others`, `C72_renumbered`, `C72_accept`, `C72_dispatch`, `C72_only`, `C72_once`.
* **C73** Every configured module is monitored. Forward execution of an addition under the invariant of C72; counterexamples by computation. *partial*: `C73_possible_partial`, `C73_full_refuted`, `C73_stolen_refuted`, `C73_default_refuted`.
* **C74** Main and monitor controller run at the same rate. Model that records the driver calls of both controllers; the rates follow from replaying them; invariant over all operations. *partial*: `C74_same_partial`, `C74_set_partial`, `C74_driver_refuted`, `C74_current_refuted`, `C74_unset_refuted`.
* **C75** The node mode is the mode of both controllers. The modes follow from replaying the driver calls; postcondition of every operation. *partial*: `C75_modes_partial`, `C75_start_partial`, `C75_stopped_refuted`, `C75_lost_refuted`.
* **C76** A search for the rate disturbs nobody with either controller. The calls of a search step as a list; properties of all its prefixes. *partial*: `C76_main_partial`, `C76_step_partial`, `C76_begin_partial`, `C76_active_refuted`, `C76_start_refuted`.
* **C77** Errors reported by the main program survive interrupts. The report as a list of memory accesses with arbitrary interrupt calls between them; schedules at harmless points are equal to a sequential history, to which C23 applies; counterexamples for every other point by computation. *partial*: `C77_points_partial`, `C77_inside_refuted`, `C77_slot_partial`, `C77_slot_reads_partial`, `C77_slot_refuted`.
* **C78** Switching modules silent or awake does not disturb the others, with interrupts at any moment. The switch as a list of memory accesses with arbitrary interrupts between them; invariant for the modules not being switched and for the objects done; the findings are proved for every state, module pair and object. *partial*: `C78_switch_partial`, `C78_lost_refuted`, `C78_contents_refuted`, `C78_part_refuted`, `C78_same_refuted`.
* **C79** A critical module takes no part in the process data. The modules that take part are a function of the history; invariant between it, the send register and the conversion routines; the frames of a request, the delivery of data and the verdicts follow from the invariant. *partial*: `C79_frames_of_a_cycle_partial`, `C79_critical_sends_no_data_partial`, `C79_critical_gets_no_data_partial`, `C79_critical_counts_as_valid_partial`, `C79_effect_partial`, `C79_ended_by_the_master_refuted`, `C79_active_while_silent_refuted`, `C79_second_of_a_type_refuted`.
* **C80** Hooks and time functions stay with their module. The registered hooks are a function of the history; frame argument over all operations that no other operation changes them and that every event calls the registered one; the time function follows from C03. *proved*: `C80_right_hook`, `C80_request_hooks`, `C80_registration`, `C80_time_function`.
* **C81** Announcements of the search come in pairs. Invariant between the state of the search, its cause and the announcement that is open; case analysis of every event with the closed forms of C51. *partial*: `C81_paired_partial`, `C81_told_partial`, `C81_refused_end_refuted`, `C81_restart_refuted`, `C81_unknown_rate_refuted`.
* **C82** Period of the process requests with requests arriving during the call. The two functions as sequences of accesses with lists of requests between them; compared with the functions of the node model run before or after the requests; the findings are proved for every state and time. *partial*: `C82_measured_partial`, `C82_get_partial`, `C82_trigger_partial`, `C82_get_refuted`, `C82_limited_refuted`, `C82_wrap_refuted`, `C82_lost_refuted`, `C82_two_refuted`.
* **C83** Cycle time and factory reset told by the master. Case analysis of the two messages; frame argument over all other operations and messages. *proved*: `C83_cycle_time`, `C83_cycle_message`, `C83_reset_called`, `C83_reset_message`, `C83_reset_unauthorised`.
* **C84** Every received frame is handled by one service, once. Invariants over all operations: control objects are used, not reserved and not registered for process data; control objects of the table are pairwise different as long as the numbers are small; the complete receive path is then a case analysis. *partial*: `C84_one_service_partial`, `C84_tunnel_partial`, `C84_extended_partial`, `C84_control_once_partial`, `C84_control_delivered_partial`, `C84_old_number_partial`, `C84_twice_refuted`, `C84_request_by_data_refuted`.
* **C85** The random delays before status answers keep nodes apart. The delay depends on the low half of the seed only; the affine map on 16 bits has the full period (its 2^15-th power adds 32768), so any two low halves are shifts of each other by less than the period; delays that agree 65536 times in a row would agree for every shift. *partial*: `C85_range_partial`, `C85_seed_partial`, `C85_differ_partial`, `C85_same_refuted`, `C85_coarse_refuted`, `C85_all_used_partial`, `C85_period_refuted`.
* **C86** The query for a running transfer tells when one runs. Relation between start, end and observations of every part of the code: the flag stays unless an end is sent; then case analysis of the messages and induction over the history. *proved*: `C86_query`, `C86_initially`, `C86_step`, `C86_activity`.
* **C87** A received frame acts by what was received only. Two runs of the receive path with buffers that agree on the received bytes, compared function by function; each conversion reads indices below the length only. *partial*: `C87_node_partial`, `C87_conversions_partial`, `C87_control_refuted`.
* **C88** The reception pauses after a reconnect for the configured time. The two conditions of the receive functions over histories of begin, end, time stamp and frame with unbounded time; the clock is the time modulo 2^32. *partial*: `C88_pause_partial`, `C88_clock_refuted`, `C88_skipped_refuted`, `C88_start_refuted`, `C88_gap_refuted`.
* **C89** The lock of the error handler. Stack machine of nested calls with one instruction per access; invariant on the shape of the stack, alternation of begin and end in the log. *partial*: `C89_one_at_a_time_partial`, `C89_skip_partial`, `C89_free_partial`, `C89_threads_refuted`, `C89_irq_refuted`.
* **C90** Accepted asynchronous data goes out, also after an outage of the bus. The queue of C36 driven by the trigger of the adapter (one attempt per accepted call); simulation by a list of waiting frames, which never gets shorter. *partial*: `C90_order_partial`, `C90_immediate_partial`, `C90_defined_partial`, `C90_backlog_refuted`, `C90_stuck_refuted`, `C90_tunnel_refuted`.
* **C91** A change of the number is one step on the bus. The call as a list of memory accesses with requests and data frames before each of them; the state after each prefix of the list is computed in closed form. *partial*: `C91_cycles_partial`, `C91_data_partial`, `C91_after_partial`, `C91_mixed_refuted`, `C91_silent_refuted`, `C91_lost_refuted`.
* **C92** A valid image holds the data of its cycle. On the node model: a classification of all operations of a cycle by their effect on table and application memory, induction over the cycle, combined with C01 and C10. *partial*: `C92_content_partial`, `C92_first_cycle_refuted`, `C92_zeros_refuted`.
* **C93** Nodes with different module numbers never send the same identifier. On the node model, for two nodes with different environments and histories: every sent frame is attributed to a table entry by the invariant of C05/C07, the identifier arithmetic of C12 separates the entries. *partial*: `C93_own_partial`, `C93_apart_partial`, `C93_disjoint_partial`, `C93_spare_refuted`.
* **C94** The download buffer may be read while data messages arrive. Accesses of one read as transitions, complete calls of the interrupt between them; invariant relating the buffer to its content at each point of the call; counterexample schedules. *partial*: `C94_clean_partial`, `C94_in_order_partial`, `C94_uninterrupted_partial`, `C94_lost_refuted`, `C94_wrap_refuted`.
* **C95** A node sends only in answer to the master, and a bounded number of frames. Additive counting of transmissions over the functions of the node model; invariant that the send register has 32 bits and the error memory stays within its size; sum over the history. *proved*: `C95_per_operation`, `C95_history`, `C95_request`.
* **C96** A node without modules announces itself as unknown. Model of the first lines of lcsa_start; the table of a node without additions is the initial one (invariant), hence the addition gets position 0 and number 125; then C15, C05 and C32 applied to the node with the unknown module. Refutation: an addition refused by the controller. *partial*: `C96_modules_present_partial`, `C96_unknown_added_partial`, `C96_start_ends_partial`, `C96_stays_partial`, `C96_announces_partial`, `C96_no_process_data_partial`, `C96_failed_addition_refuted`.
* **C97** Data messages that reach the user of the tunnel. Composition of the node model and the tunnel model: an acknowledged opening redefines the data receive object of the node, data messages pass its acceptance filter and the dispatcher. Invariant over every run: the filter of the object is the identifier of the last module the tunnel was opened for; the dispatcher hands the object's frames to the port (C35). *partial*: `C97_owner_partial`, `C97_acknowledged_partial`, `C97_closed_refuted`, `C97_addition_refuted`, `C97_driver_refuses_refuted`, `C97_renumbered_refuted`.
* **C98** A download block through the control receive queue. Composition of the queue model (AsyncModel) and the download model (XloadModel); events are arrivals and polls in any order. Simulation: a run does what the download does with the sequence of accepted messages; then the rules for data messages and block ends of C42. *proved*: `C98_all_or_nothing`, `C98_room`, `C98_end_again`, `C98_block_again_refuted`.
* **C99** Backup and restoration. Two runs of the protocol model XloadModel, one uploading and one downloading, connected by a relay that passes contents on unchanged. The frames of an upload (C44) are the messages of a block in the sense of C42, so the results compose; losses and interruptions by the rules of C42 for wrong numbers of messages and for data messages. *partial*: `C99_restore_partial`, `C99_same_bytes_partial`, `C99_lost_partial`, `C99_incomplete_partial`, `C99_second_block_refuted`.
* **C100** Download messages act only within the download they belong to. Histories of XloadModel: any mixture of data messages to any listening modules, terminations, end acknowledges and unrelated messages, then a block end; the state between blocks is the invariant, and the rules for block ends of C42 apply to it whatever the state of the transfer is. *partial*: `C100_counted_partial`, `C100_terminated_refuted`, `C100_modules_refuted`, `C100_after_end_refuted`, `C100_after_error_refuted`, `C100_never_started_refuted`.
* **C101** Nodes with equal numbers are told apart by their serial numbers. A bus is a list of nodes with their configurations; every frame is received by every node whose filters it passes. Per node: a message with another serial number changes nothing (C18), the one with its serial number changes the number of the first entry with the old number (C17, here in the other direction). Induction over the list of messages. *partial*: `C101_one_partial`, `C101_all_partial`, `C101_possible_partial`, `C101_large_refuted`.
* **C102** Values cross the bus unchanged between platforms. Composition of the request (C05), the acceptance of a frame (C10) and the conversion functions (C54), for two nodes of NodeModel whose applications have different byte orders. *proved*: `C102_across`, `C102_bytes`.
* **C103** A transfer can always be started anew. The state after an arbitrary history of XloadModel is brought to the precondition of C42 (and C44) by a termination message or by a refused start request; the counters and the buffer are set by the start request itself. *partial*: `C103_after_stop_partial`, `C103_two_attempts_partial`, `C103_upload_partial`, `C103_first_attempt_refuted`.
* **C104** What the nodes answer to a status request is enough to address them. The bus of C101 with a broadcast status request (C15) in front; induction over the list of orders with the invariant that the answers of all modules stay the same; each order is C18 and C20 for the node that answered and C18 for all others. *partial*: `C104_answers_partial`, `C104_orders_partial`, `C104_renumber_partial`, `C104_large_refuted`.
* **C105** Every pending error is announced. Relation over operations: the pending errors grow at the end (through send_rel of the ring buffer, C24) except at process and status requests, where the oldest are taken out and sent; induction over the continuation. *partial*: `C105_announced_partial`, `C105_memory_partial`, `C105_kept_partial`, `C105_slot_refuted`, `C105_silent_refuted`.
* **C106** In a process cycle every object of the bus is sent once. The bus of C101 with one process request handled by every node; C05 gives the frames of each node, the invariants on numbers make the identifiers of one node distinct, different numbers those of two nodes; induction over the list of nodes. The content of a frame is traced back through the identifier to the only object that can have it. *proved*: `C106_no_collision`, `C106_only`, `C106_all`, `C106_data`, `C106_read`.
* **C107** Nodes do not take each other's frames for messages of the master. Invariant over all operations: every receive filter has the identifier of a message of the master (1, 2, 0x200.., 0x600..) and a mask with the bits 0, 1, 9 and 10; identifiers of nodes (C93) differ from all of them in one of these bits. A second invariant bounds the numbers; with at most four positions it holds in every calm history. *partial*: `C107_low_partial`, `C107_quiet_partial`, `C107_four_partial`, `C107_answer_refuted`, `C107_data_refuted`.
* **C108** Process data of the master reaches the module it is meant for and no other one on the bus. Invariant over all operations: every receive filter is either one of the other message classes (bit 9 clear or bit 10 set, compared by the mask) or the exact identifier of an object of a table entry in use, and stands in the message object noted there. During an addition the invariant runs over the receive objects defined so far, also when a definition fails. With unique numbers (C29) and the numbers of different nodes apart, two filters for one identifier are the same one. *proved*: `C108_addressee`, `C108_one_place`, `C108_delivered`, `C108_others`.
* **C109** What the master sends in a cycle decides which process images are valid. By induction over the frames, C108 turns the frames of the master into receptions of the objects: a frame is received by the object it names exactly when its length is right and by no other one, and frames without an addressee change nothing; the configuration stays the same. The number of receptions then equals the number of frames sent, C01 gives the verdict and C92 the content of the memory. *proved*: `C109_valid`, `C109_data`.
* **C110** A control message reaches the module it is meant for, once on the bus. Invariant over all operations as for C108: every receive filter is either one of the other message classes, or the initial one of number 1, or the exact control identifier of a table entry in use; and no two message objects have the control identifier of the same number. The second part holds through an addition because the number is new (C29) and the control object is defined once. Delivery follows with C84. *proved*: `C110_addressee`, `C110_one_place`, `C110_delivered`, `C110_others`, `C110_one_refuted`.
* **C111** Values of the master reach the application in a cycle and come back in the next one. The content of the memory from C109 with the library's receive conversion applied to the bytes of the frame (C54, C102) gives the values; the write of the application and the next request are steps of the same node model, so that C102 applied to the state after the write gives the frame. *proved*: `C111_arrives`, `C111_returns`.
* **C112** Initialising a node with two controllers again starts a fresh, equal cycle for all modules. A second initialisation is added to the two-controller model of C56. Two runs, with and without it, are compared step by step: a relation between their states away from the first position; and a relation that becomes stronger with a request on the main controller (equal captures), on the monitor, and the next request (equal counters, equal received bytes where one was counted). *partial*: `C112_other_modules_partial`, `C112_forgotten_partial`, `C112_first_refuted`, `C112_counts_refuted`.
* **C113** Clearing the receive data of a module clears exactly that and changes no verdict. The call is added to the two-controller model of C56 with errors of the conversion functions as a parameter; its effect by induction on the objects. Two runs with and without the call are compared: equal but for received bytes of objects whose counter is 0, which no comparison reads before a new frame has overwritten them. *partial*: `C113_cleared_partial`, `C113_error_partial`, `C113_fails_partial`, `C113_between_partial`, `C113_hides_refuted`.
* **C114** The IO configuration of a module is the one set last for it. A table of types and configurations with the calls as steps, and a specification that follows one type through a history without a table. Invariant: used entries before free ones, and the first entry with the type holds what the specification says. *partial*: `C114_configuration_partial`, `C114_one_place_partial`, `C114_same_type_refuted`, `C114_empty_refuted`.
* **C115** Single transmit objects can be switched off and on. The two calls as state transformers, applied in any order to a reachable node. The bits of the register are described by the last call for each object; then the send loop is shown to be a walk over the set bits, as in C05. *partial*: `C115_calm_history_partial`, `C115_sent_partial`, `C115_stays_partial`, `C115_nothing_else_partial`, `C115_not_configured_refuted`, `C115_silent_refuted`, `C115_lasting_refuted`.
* **C116** The bit rate the application reads is the one on the bus. The three places are fields of the node. Every operation except setting a rate leaves them alone; setting a rate, directly or by a broadcast, moves them together. Induction over the history. *partial*: `C116_loader_partial`, `C116_read_partial`, `C116_set_partial`, `C116_running_refuted`, `C116_unknown_partial`, `C116_refused_partial`, `C116_unknown_answer_refuted`.

## What is not modelled

* Debug output (`LI_CAN_SLV_DEBUG_*`), the show functions, util/ (the analyzer is empty, the quality functions only
  return "not implemented", assert), error/io_can_errno.c
  (texts).
* The CANpie driver itself: its calls are parameters with arbitrary outcomes.
* The boot loader variants (`LI_CAN_SLV_BOOT`): io_can_main.c:532 calls can_config_module_nr_valid with four arguments where this
  build declares three, so there is no such program to model. LIDIS and QTP, the backward compatible layout of the download information.
* Callbacks that call back into the library from inside a callback, except the download and upload handlers, which are
  programs over the interface (XloadModel), and interrupts inside functions, except where a property is about them (AsyncModel
  C37, SnapModel C11, ReconModel `mid`, ErrIrqModel C77, SwIrqModel C78).
* For the monitor: type changes (MonCfgModel has initialisation, additions, number changes and reception; MonModel has a fixed
  table; DualModel has mode and rate), MAIN_MON.
* can_config_set_critical with LI_CAN_SLV_SYNC_CRITICAL_CLEAR_OBJ: that code calls a function the library does not have.
* Reconnect triggered by the monitor node, the error storage of reconnect.

## Findings

Behaviour of the code that contradicts a property or is worth knowing; each item with a theorem is proved.

Process data and configuration
* The first cycle after power-on is judged although no request opened it (`C01_first_cycle_refuted`); a module woken up
  inside a cycle is judged by an incomplete cycle (`C01_woken_module_refuted`).
* After a number change of a module that is not the last one, the send loop never ends (`C06_terminates_refuted`), and a
  silent module can send (`C07_after_number_changes_refuted`).
* Default numbers of unused table entries count as known numbers (`C14_unconfigured_number_refuted`,
  `C55_only_configured_refuted`). Default numbers are 125 + position; from position 4 on they have no valid identifiers:
  the definition of the control object fails with the check of CAN_MAIN_CHECK_DEFINE_OBJECT while adding reports success.
* A listen-only node sends pending errors (`C15_listen_only_refuted`). Serial numbers of 2^24 or more can never be addressed
  (`C18_large_serial_refuted`).
* Number changes: numbers in use are accepted without a validator (`C30_unique_refuted`), an unknown module is a write behind
  the table (`C31_unknown_module_refuted`), 0 and numbers above 128 are accepted.
* Failed definitions leave registrations of message objects behind; after a failed addition the indices of the control objects
  shift; a type change to more receive objects followed by a number change redefines message object 0; a type change with an
  empty type registers an unused slot; the control object of the old number keeps its mask after a number change.

Main and monitor
* A request missed by the monitor costs two cycles without any verdict or callback (`C56_refuted`); a foreign frame with the
  node's identifier is ignored (`C56_foreign_refuted`); the comparison reads the application's object at the next request
  (`C56_application_refuted`); the buffer for own frames is uninitialised (`C56_stack_refuted`). can_sync_init clears the
  buffers of the first module only; the monitor's result overwrites the main one in can_set_node_mode.

Errors
* A full queue writes outside its storage (`C24_overflow_refuted`); peeking returns the wrong entry after a read
  (`C25_peek_refuted`).

Asynchronous messages, download, upload
* The fill counts are changed without a lock from thread and interrupt (`C37_preemption_refuted`, `C37_count_refuted`): a frame
  that was never queued can be sent. A transmit type outside the enumeration keeps a stale identifier.
* Rollback after an addition loses bytes (`C39_rollback_refuted`).
* A second start request cancels a running download although it is refused (`C43_second_start_refuted`); the first half of an
  upload request resets the counters of a running download (`C43_upload_request_refuted`); a byte count larger than what was
  received is accepted and fillers are delivered (`C42_byte_count_refuted`).
* A version request that the application rejects cancels a running download, of whatever module (`C43_rejected_version_refuted`);
  an upload info request makes the block handlers see another module number and no name (`C43_info_request_refuted`).
* The pause between the messages of an upload is lost when the system clock wraps (`C66_wrap_refuted`).
* The second block of an upload is lost (`C44_second_block_refuted`); the wait for the controller can last for ever
  (`C44_wait_refuted`).
* A torn component can have a valid checksum (`C46_component_refuted`); the baud rate is outside the checksum
  (`C46_baud_rate_refuted`); the acknowledge is repeated if power fails before the mode is updated
  (`C47_power_loss_refuted`).

Tunnel
* A denied open of another connection type takes the tunnel (`C48_denied_refuted`); any peer can close it
  (`C48_foreign_close_refuted`); bytes of one session reach the next (`C50_refuted`); the 50 ms delay is compared with the
  absolute tick count (`C59_hold_refuted`, `C59_never_flushed_refuted`); putting a byte can hang (`C60_refuted`).

Reconnect and start
* After a refused mode at the end of a search the node stays stopped (`C51_end_refuted`). A second start keeps the rate of an
  earlier search (`C52_refuted`), a frame during the process call is credited to the next rate (`C52_race_refuted`), rate 0 is
  reported (`C52_reported_refuted`). With CHECK_LEC a rate is accepted without activity (`C61_refuted`). Near the wrap of the
  clock the start-up search ends at once (`C62_refuted`).
* A bus error in the stack state "stopped" puts the controller into listen-only mode without a search. Asynchronous data is
  handed to the controller in the states start-up and idle of a search. The result of CpCoreBitrate is ignored.
* lcsa_start with reconnect overwrites results and reports success (`C58_reconnect_refuted`); initialisation records the rate
  and enables the monitor's transceiver after a failure (`C53_after_failure_refuted`).

Conversion
* The 12-bit transmit conversions read behind the eight bytes they are given (`C54_uint12_stack_refuted`).

Robustness
* With the error queue, frames from the bus alone lead to an access outside the queue (`C68_bus_only_refuted`): bad system
  messages fill it, process requests read two errors, one more bad message indexes past it.
* A type change keeps the filters of the old receive objects; with a descriptor that has fewer of them a frame calls a missing
  conversion function (`C68_type_change_refuted`).

Type changes
* A type change while a later module is silent, which is woken up afterwards, makes the next process request last for ever
  (`C06_type_change_refuted`). A silent module whose type is changed receives data again (`C69_silent_receives_refuted`) and,
  once woken up, sends frames with identifier 0 and no data for the additional objects (`C69_identifier_zero_refuted`).
* No message object is set up for additional receive objects (`C69_not_received_refuted`); a number change after that takes the
  message object of the process requests for them, and the node is deaf to process requests (`C69_deaf_refuted`).
* The supervised numbers of objects come from the descriptor, unlike in add module: with 0 in the descriptor the module is not
  supervised any more (`C69_not_supervised_refuted`).

### Second initialisation (C70) and repeated number changes (C71)

* can_init after can_deinit resets the module table and the message objects, but not the transmit register, the silent states
  and the table that maps message objects to modules. With no module configured a process request sends the objects of the old
  modules (`C70_sends_refuted`); a module that was silent is silent when added again (`C70_silent_refuted`); accepted frames are
  not delivered because an old entry for the message object comes first (`C70_receive_refuted`); the table fills up, and adding a
  module reports success although some of its objects are not received (`C70_full_refuted`).
* Every number change takes a new message object for control messages and keeps the old one (`C71_takes_partial`,
  `C71_bounded_refuted`). With none left the change stops half way: the module has the new number, the filters do not
  (`C71_half_refuted`). A single module with 1 receive object is deaf to its own number after 26 changes from the bus
  (`C71_deaf_refuted`). The control objects of the old numbers stay active as well.

### Monitor configuration (C73)

* The table of checked transmit objects has 16 entries. The fifth module with four transmit objects is not monitored and gets no
  receive objects at all, while adding it reports success (`C73_full_refuted`).
* A number change of such a module writes to the message object numbers of the descriptor, object 0, which belongs to the first
  module: its frame is not checked any more, and the changed module's frames are processed as the first one's
  (`C73_stolen_refuted`).
* Default numbers are 125 plus the position. From position 5 on they are above 129 and the receive identifiers are transmit
  identifiers of low module numbers; two message objects take the same frame (`C73_default_refuted`).

### Mode and rate with a monitor (C74, C75, C76)

* can_mon_hw_enable starts the monitor in every mode but listen-only. The monitor of a stopped node is active
  (`C75_stopped_refuted`). Every step of a search stops the node first, so the monitor is active on the bus with the old rate
  until the new one is set (`C76_active_refuted`); at the start it is active before it has any rate (`C76_start_refuted`).
* li_can_slv_set_node_mode returns the monitor's result, which is always good: a start reports success and the state is running
  although the main controller refused to start (`C75_lost_refuted`).
* The outcome of CpCoreBitrate is ignored; after a refused call the controllers have different rates (`C74_driver_refuted`).
* can_config_set_baudrate stores the rate before it is accepted: after a refused change in an operational node the reported
  current rate is wrong (`C74_current_refuted`). A rate that is not in the table is a success: a start leaves both controllers
  running without a rate (`C74_unset_refuted`).

### Further findings

* With two modules of the same number (possible, C30) the first one decides: an awake module does not answer a status request
  while the first module with its number is silent (`C15_duplicate_refuted`).
* A change of the number of a silent module clears the receive data of the application again (the silent routine runs once more).

### Error reports and interrupts (C77)

* can_error_sys_error_send_full changes the queue without an interrupt lock (its comment asks "is here a irq lock needed"), while the receive
  interrupt reports and reads errors. One interrupt between two accesses suffices, for every access between the first reading of
  the count and the advance of the index: a false "queue full" report, a lost report, a report delivered with the fields of
  another one, a blank report (`C77_inside_refuted`; the first report after power-on also during the initialisation).
* The build without a queue stores the count before the fields: a read between the stores takes a mixture of two errors and the
  reported one is gone (`C77_slot_refuted`).

### Switching modules with interrupts (C78)

* The send register holds the flags of all modules and is changed by read-modify-write without an interrupt lock. A message that
  silences another module between the reading and the writing is lost for the transmission: the module is silent, but all its
  objects are sent, and because the conversion routines are switched, with the contents of the buffer of the sending function, which
  is not initialised. A module woken up at this moment sends nothing (`C78_lost_refuted`, for every pair of modules).
* can_config_sync_on sets the flag before the conversion routine: a process request in between sends a frame with such contents
  (`C78_contents_refuted`). A request between two objects gets a part of the objects (`C78_part_refuted`).
* If a message silences the module the application is waking up, the state is silent and all objects are sent (`C78_same_refuted`).

### Critical modules (C79)

* Critical and silent share the switched objects but not the flag. The message 'awake' to a module that is awake ends the critical
  state without the application (`C79_ended_by_the_master_refuted`); 'active' makes a silent module send while it still counts as
  silent (`C79_active_while_silent_refuted`).
* The declarations look for the type only: of two modules of the same type the second one cannot be declared critical
  (`C79_second_of_a_type_refuted`).

### Announcements of the search (C81)

* can_reconnect_off tells the end of a search only if the driver accepted the operational mode. Otherwise the search is over, the
  application still waits for its end, and the next search is announced by a second beginning (`C81_refused_end_refuted`).
* With a start-up rate that is not supported the search without traffic ends with telling this rate, while the controller keeps
  the rate tried last (`C81_unknown_rate_refuted`).
* Not modelled, seen while reading: the two macros for the callbacks at the end are exchanged in can_reconnect_off
  (io_can_reconnect.c:1012-1024): a build with only one of them calls a callback that is not declared.

### Period of the process requests and interrupts (C82)

* li_can_slv_sync_get_process_periode reads the period twice. A process request between the two readings makes it return the raw
  distance, above the maximum (`C82_get_refuted`, for every state with a period within the maximum).
* li_can_slv_sync_trigger_process_periode reads clock and time stamp in an order the language leaves open. With the clock first, a
  request in between gives a negative difference: the period jumps to the maximum (`C82_wrap_refuted`). A request between comparison and
  store is overwritten (`C82_lost_refuted`).

### Received frames (C84)

* A number above 128 told by the master (it is not checked) fails half-way: the identifier of the control messages would have 12
  bits, but the table of control objects already names an object that stays free. The next module that gets a control object gets the
  same one, and its control messages are handed over twice (`C84_twice_refuted`).
* A module whose addition failed stays in the table with the message object numbers of its descriptor (0). If the master tells it a
  new number, object 0, the one of the process requests, is redefined: the node answers the process data frames of this module like
  process requests and hears no process requests (`C84_request_by_data_refuted`).
* The default number of the fifth and later modules (129 and above) has the same effect as a number above 128.

### Random delay of the status answer (C85)

* The random value is multiplied by 65536 before the division by 104, where a division by 65536 was meant: the delay depends on the low
  16 bits only. Nodes whose serial numbers agree in the low 16 bits wait equally long for every request (`C85_same_refuted`).
* The delay is 8 * (2 * low half mod 13): of 104 delays 13 occur, in steps of 8 microseconds, one bit time at 125 kbit/s
  (`C85_coarse_refuted`, `C85_all_used_partial`).
* The sequence repeats after 65536 requests instead of 2^32 (`C85_period_refuted`).

### Begin of a search (C51)

* If the application has set the state to stopped while the controller is operational, one error on the bus switches the controller to
  listen-only and no search begins: the node does not send again until the application acts (`C51_stopped_refuted`).
* Any error kind, even a single one on an error-active controller, begins a search (`C51_begins_partial`).

### Bytes that were not received (C87)

* The receive buffer is not initialised and the length of control messages is not checked: the services act on all eight bytes. An empty
  frame for a module ends a running transfer if the old memory begins with 27, and does nothing if it begins with 24
  (`C87_control_refuted`).

### Pause of the reception (C88)

* The condition compares the clock with the sum of the stored time and the pause, both modulo 2^32, instead of a difference. Once the
  clock runs over, a node whose last reconnect ended at T ignores every frame for the next T milliseconds, up to 49 days
  (`C88_clock_refuted`). If the reconnect ends near the end of the clock there is no pause (`C88_skipped_refuted`).
* The stored time starts at 0: without any reconnect the node is deaf at power-on (`C88_start_refuted`).
* The state is switched off before the time is stored; a frame received in between is handled (`C88_gap_refuted`).

### Lock of the error handler (C89)

* The lock is tested before interrupts are disabled. With interrupts that run to their end this is harmless (proved), with threads two
  evaluations overlap (`C89_threads_refuted`).
* Leaving enables interrupts without looking whether they were enabled (`C89_irq_refuted`).

### Outage of the bus and asynchronous data (C90)

* The CANpie adapter registers no transmit handler; the queue is served once per accepted call and never otherwise. A message that could
  not be sent during its call (search running, controller busy) leaves a backlog that is never worked off: from then on every message goes
  out one call late (`C90_backlog_refuted`, `C90_late_ex`).
* With four such messages the queue is full. A full queue refuses calls before the handler is triggered, so nothing is ever sent again;
  a new initialisation does not clear the queue (`C90_stuck_refuted`). The tunnel waits for a free place and hangs (`C90_tunnel_refuted`).
* C36 and C49 quantify over all moments at which the handler may run; with this adapter those are only the calls that put a message.

### Change of the number with the bus running (C91)

* The identifiers of the transmit objects are rewritten one after the other; a request in between is answered partly under the old and
  partly under the new number (`C91_mixed_refuted`, every pair of numbers and every module with two or more transmit objects).
* can_main_sync_process_tx_data_cnfg sets the send flag unconditionally and the state is restored only at the end of the call: a silent
  module transmits if a request arrives meanwhile (`C91_silent_refuted`).
* The number is written first, the receive identifiers last: data for the old number still arrive and are refused with an error, although
  the module still answers under the old number (`C91_lost_refuted`).

### Content of a valid image (C92)

* Silencing a module overwrites its receive objects with zeros (can_config_sync_off calls the conversions with zero data) but does not
  clear the receive counters. A module that is silenced and woken again within one cycle, after its data arrived, is declared valid while
  its memory holds zeros (`C92_zeros_refuted`).
* Data received before the first process request count for the first cycle: an image is declared valid although nothing was received
  since the request (`C92_first_cycle_refuted`).

### Two nodes on one bus (C93)

* Spare table entries have the default numbers 125, 126, 127 and are awake, so two nodes with spare entries both answer a status request
  to such a number, with the same identifier (`C93_spare_refuted`). Process data are never affected.

### The download buffer with interrupts (C94)

* `nr_bytes--` in xload_buffer_get_byte is not protected. A data message that is received between its read and its write is stored but
  not counted; the application is told that the buffer is empty while seven bytes are in it (`C94_lost_refuted`).
* The end of a block may remove the byte that is being read; the number of bytes then wraps to 65535 and every later byte is refused
  (`C94_wrap_refuted`). Reading inside the block end handler is safe.

### The number of frames (C95)

* `allowance` (NodeLoadSpec.v) is the table of the most frames per operation; `C95_per_operation` proves it after every history, `C95_history`
  sums it up. No operation of the application sends a frame at once, and a failed transmission is not repeated by the node.

### The unknown module (C96)

* can_config_add_module writes the table entry before it asks the controller for message objects, and counts the module only if all of them
  were granted. After a refused first addition the module count is 0 while entry 0 is in use. lcsa_start tests the count, adds the unknown
  module at position 1 and counts it; all loops over the counted modules then visit entry 0. The node answers as the module whose addition
  failed (without its missing objects) and never as UKWN (`C96_failed_addition_refuted`).

### Node and tunnel together (C97)

* Opening the tunnel narrows the filter of the data receive object to the module of the tunnel (io_can_async.c:472). Nothing widens or
  switches it off again when the tunnel is closed, and can_async_handler_data_rx does not look at the state of the tunnel: after closing, the
  user still gets what is sent to the last module (`C97_closed_refuted`, for every such history).
* Every addition of a module and every change of a number defines the object with the wide mask over all modules. From then on the user of an
  open (or closed) tunnel gets the data messages for all modules and for number 1 (`C97_addition_refuted`, for every state).
* After a change of the number of its module the tunnel keeps the old number: it sends under the old identifier, does not hear the other side
  any more, and does not answer its closing message (`C97_renumbered_refuted`).
* The result of can_main_define_msg_obj is not used: the opening is acknowledged although the filter is unchanged
  (`C97_driver_refuses_refuted`).

### Downloads behind the receive queue (C98)

* A refused data message is noticed at the block end: the number of data messages does not match and the download is terminated.
* A refused block end is noticed by nobody on the slave. If the master sends only the block end again, the block is completed
  (`C98_end_again`). If it sends the whole block again, the data messages of both attempts are counted, and the download is terminated
  although every message was accepted (`C98_block_again_refuted`).
* Second initialisation, hooks (C70): only the hooks of modules' process images and of the first status request are removed. A hook for the
  process request, the first process request, the system time, the factory reset or silent modules registered before li_can_slv_deinit is still
  called afterwards, and the first process request after the second li_can_slv_init is not reported as the first (`C70_hooks_refuted`).

### Backup and restoration (C99)

* A component that is uploaded as one block is restored exactly.
* In two blocks it is not, and nobody notices: the uploading stack sends one message of zeros and a block end with the byte count of
  the first block (C44), the downloading stack accepts a block end that announces more bytes than were received (C42), calls the
  application with seven zeros and acknowledges (`C99_second_block_refuted`).

### Messages outside of their download (C100)

* li_can_slv_dload_data and li_can_slv_dload_data_block_end look neither at the state of the transfer nor at the module the download
  belongs to. A block that comes after a termination, after the end, after an error or without any start calls the handler of block
  ends and is acknowledged (`C100_terminated_refuted`, `C100_after_end_refuted`, `C100_after_error_refuted`,
  `C100_never_started_refuted`); the component passed to the handler is the one of the last download, without its name, or zero.
* The messages of a block may go to different modules of the node (`C100_modules_refuted`).

### Commissioning of several nodes (C101)

* A bus is a list of nodes of the model. Every change-number message is received by all of them; only the node with the serial number of the
  message changes, so nodes that all start with the same number can be given different ones (`C101_one_partial`, `C101_all_partial`).
  The message carries 24 bits of the serial number but the comparison is made with all 32: a node with a larger serial number cannot
  be given a number from the bus by any sequence of frames (`C101_large_refuted`).

### Values between two platforms (C102)

* The conversion functions of ConvModel are used as conversion functions of NodeModel's objects (`library_tx`, `library_rx` in ValueSpec; an access
  outside of the buffer, which the theorem's hypotheses exclude, would be an error code). The master is not modelled: the second node gets
  the bytes of the frame of the first one under an identifier it listens to.

### Transfers started anew (C103)

* There is no time-out: a download or upload that a master left unfinished makes the next start request fail, whoever sends it
  (`C103_first_attempt_refuted`). The refusal itself ends the old transfer, so the same request succeeds when it is repeated.

### Orders made from status answers (C104)

* A node whose serial number needs more than 24 bits answers a status request with the low 24 bits. Orders made from that answer are
  compared with the whole serial number and do nothing (`C104_large_refuted`).

### Announcement of errors (C105)

* Without LI_CAN_SLV_SYS_ERROR_QUEUE the error memory has one place: an error reported before the next process request replaces the pending one,
  which is never announced (`C105_slot_refuted`).
* An error whose module is silent is taken out of the memory and not sent, also not after the module is awake again
  (`C105_silent_refuted`).
* "Announced" means handed to the CAN driver. A driver that refuses the message loses the error: it has been taken out before, and the result
  of can_sys_send_error_full is not used for anything but a report.

### Frames of other nodes (C107)

* A module that is added at the sixth position with an invalid or taken number gets the default number 130. Its answers to status requests
  have the identifier 519, which is receive object 3 of a module 2: that module takes the answer as process data (`C107_answer_refuted`).
  Its own receive object 0 has the identifier 1028, which is transmit object 0 of a module 2 (`C107_data_refuted`). The same holds for the
  other defaults above 128, and for numbers above 128 set by a change-number message that no application function refuses.

### Control messages on a bus (C110)

* From the initialisation to the first addition, the shared object for asynchronous data listens to the identifier of the control messages of
  module 1 (io_can.c:235 uses CAN_CONFIG_ASYNC_CTRL_RX_SLAVE_ID instead of the identifier of the data class), although the node has no module
  (`C110_one_refuted`). Number 1 cannot be given to a module by an addition, so nothing is lost in practice.

### Second initialisation with two controllers (C112)

* can_sync_init clears sizeof(can_sync_data_t) bytes of two arrays with one element for each module (io_can_sync.c:411-412), so only the module
  at the first position loses its buffers. An initialisation during a cycle makes that module invalid while the others stay valid
  (`C112_first_refuted`).
* Flags and counters of the process image are not cleared at all: the first request afterwards gives verdicts about frames from before
  (`C112_counts_refuted`).

### Clearing the receive data (C113)

* can_sync_clr_rx_data_main_mon writes zero bytes over the data of both controllers but leaves the counters of received frames. Called between
  the frames of a cycle and the next request it makes a cycle valid in which the two controllers received different bytes
  (`C113_hides_refuted`).

### IO configurations (C114)

* can_config_set_ioconfig and can_config_call_ioconfig_set find a module by its type alone. Of two modules with the same type and different
  numbers the second one cannot be configured (`C114_same_type_refuted`).
* The search covers free entries of the table, whose type is the empty string: a setting for the empty type is reported as a success on a node
  without modules (`C114_empty_refuted`).

### Single transmit objects (C115)

* can_main_synchron_tx_data_on does not check that the object is configured and does not extend the range of the send loop. An object within the
  range is then sent with identifier 0; one behind the range makes the next process request loop forever (`C115_not_configured_refuted`).
* It does not check that the module is awake either: the object of a silent module is sent, with the data of the object sent before it
  (`C115_silent_refuted`).
* Waking a module up switches all its objects on, also those that were switched off singly (`C115_lasting_refuted`).

### The bit rate (C116)

* can_config_set_baudrate copies the table entry to the current rate before the hardware has accepted it. In a running node the hardware layer refuses
  the change and the call returns an error, but lcsa_get_baudrate reports the refused rate from then on (`C116_running_refuted`).
* An unknown rate is ignored and answered with LI_CAN_SLV_ERR_OK: the error in the return statement is commented out
  (`C116_unknown_answer_refuted`).
