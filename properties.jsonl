{"id": "C01", "title": "Process image verdict equals what was received in the cycle", "statement": "For every history of process requests and synchronous data frames, at each process request that closes a cycle opened by a process request of DLC <= 1, every configured logical module gets exactly one verdict callback: 'image valid' iff each of its receive objects was accepted exactly once since the previous process request, 'image not valid' otherwise. Frames of earlier cycles never influence the verdict.", "quantifier": "every interleaving of process requests and data frames of any length, every number of configured modules and receive objects, every DLC and conversion result", "why_tests_cant": "The verdict depends on the whole frame history through counters; tests replay a handful of cycles.", "anchors": ["source/sync/io_can_sync.c:li_can_slv_sync_check_process_image", "source/sync/io_can_sync.c:li_can_slv_sync_check_process_image_module", "source/sync/io_can_sync.c:li_can_slv_sync_clear_process_image", "source/sync/io_can_sync.c:can_sync_rx_data_main", "source/sync/io_can_sync.c:can_sync_rx_process_main", "source/sync/io_can_sync_handler.c:can_sync_handler_rx"]}
{"id": "C02", "title": "An over-long process request suppresses the evaluation of its cycle", "statement": "If the process request that opened a cycle had DLC > 1, the next process request issues no valid / not-valid callback for any module and does not touch the valid timestamps, but starts a fresh cycle: nothing received in the suppressed cycle is visible to the verdict of the following one.", "quantifier": "every history and every DLC value", "why_tests_cant": "A leak of counters across a suppressed cycle shows only for particular frame orders.", "anchors": ["source/sync/io_can_sync.c:li_can_slv_sync_check_process_image", "source/sync/io_can_sync.c:li_can_slv_sync_clear_process_image"]}
{"id": "C03", "title": "Valid timestamps are the times of the last valid images", "statement": "After any history the value returned by the process-valid-time getter is the tick at which the last process request that found every configured module valid was handled (and the per-module valid time is the tick of that module's last valid verdict); the whole-node 'process image valid' hook runs at exactly these requests.", "quantifier": "every history of timestamped frames", "why_tests_cant": "Needs the time of the last matching event of an unbounded history.", "anchors": ["source/sync/io_can_sync.c:li_can_slv_sync_check_process_image", "source/sync/io_can_sync.c:li_can_slv_sync_get_process_valid_time"]}
{"id": "C04", "title": "Process period and cycle time stay within the configured maximum", "statement": "For every history of process requests, period triggers and configuration messages, the value returned by the period getter never exceeds the configured maximum, equals the distance of the last two process requests when that is within the maximum and no trigger intervened, and the cycle time getter never exceeds the maximum; a rejected cycle time is reported and replaced by the maximum.", "quantifier": "every 32-bit tick sequence including counter wrap-around, every cycle time value", "why_tests_cant": "Wrap-around of the tick counter and saturation interact; only a proof covers all tick values.", "anchors": ["source/sync/io_can_sync.c:li_can_slv_sync_trigger_process_periode", "source/sync/io_can_sync.c:li_can_slv_sync_set_process_cycle_time", "source/sync/io_can_sync.c:li_can_slv_sync_get_process_periode"]}
{"id": "C05", "title": "Each process request transmits every enabled synchronous object exactly once, in order", "statement": "Whatever modules were added and put to sleep or woken up, each process request sends, for every awake module in table order and every one of its transmit objects in object order, exactly one frame with the identifier 0x400+4*(number-1)+object and the configured DLC, carrying that object's converted data, and sends nothing else; the send loop terminates.", "quantifier": "every sequence of module additions, silent/awake switches and process requests", "why_tests_cant": "The send register / send end pair is history dependent; a wrong end position loses frames or never terminates.", "anchors": ["source/core/io_can_main.c:can_main_sync_send_process_data", "source/core/io_can_main.c:can_main_sync_process_tx_data_cnfg", "source/core/io_can_main.c:can_main_synchron_tx_data_off", "source/core/io_can_main.c:can_main_synchron_tx_data_on"]}
{"id": "C06", "title": "Sending process data terminates after every configuration history", "statement": "After any sequence of module additions, silent/awake switches, number changes and type changes, handling a process request terminates and sends every enabled object.", "quantifier": "every configuration history including module number changes and type changes", "why_tests_cant": "Non-termination appears only for certain orders of configuration operations.", "anchors": ["source/core/io_can_main.c:can_main_sync_send_process_data", "source/core/io_can_main.c:can_main_sync_process_tx_data_cnfg", "source/config/io_can_config.c:li_can_slv_config_change_module_nr_and_identifiers", "source/config/io_can_config.c:can_config_change_module_type"]}
{"id": "C07", "title": "A silent module transmits nothing synchronous or system related", "statement": "While a module is silent, no synchronous data frame, status acknowledge, version acknowledge or error frame carrying its module number is sent, whatever frames arrive, until it is woken up again.", "quantifier": "every history of received frames and API calls", "why_tests_cant": "Every transmit path must consult the flag; tests visit only some of them.", "anchors": ["source/core/io_can_main.c:can_main_send_queue_system_tx", "source/config/io_can_config.c:can_config_set_module_silent_awake", "source/config/io_can_config.c:can_config_sync_off", "source/core/io_can_main.c:can_main_sync_send_process_data"]}
{"id": "C08", "title": "Silent/awake is a lossless round trip for the synchronous configuration", "statement": "Putting a module to sleep removes exactly its transmit objects from the cyclic transmission, stops delivering received data for it and overwrites its application receive data with the conversion of all-zero frames; waking it up restores exactly the object counts, DLCs, conversions and transmission set it had before, and no other module is affected in either direction.", "quantifier": "every module table, every position, every number of objects", "why_tests_cant": "Quantifies over all module configurations and over the untouched rest of the table.", "anchors": ["source/config/io_can_config.c:can_config_sync_off", "source/config/io_can_config.c:can_config_sync_on", "source/config/io_can_config.c:can_config_set_module_silent_awake"]}
{"id": "C09", "title": "Synchronous data frames with a wrong module number or DLC have no effect", "statement": "With the module-number/DLC check enabled, a data frame whose identifier's module number differs from the module owning the message object, or whose DLC differs from the configured one, is reported with the corresponding error, does not reach the application data and is not counted towards the process image.", "quantifier": "every identifier, DLC, payload and table position", "why_tests_cant": "All 11-bit identifiers times DLCs times table contents.", "anchors": ["source/sync/io_can_sync.c:can_sync_rx_data_main"]}
{"id": "C10", "title": "Accepted synchronous data reaches exactly its own object", "statement": "An accepted data frame changes only the application data registered for the (module, object) pair its identifier denotes, to the conversion of exactly the received bytes, and increments only that object's reception count.", "quantifier": "every table, frame and conversion function", "why_tests_cant": "The non-interference part ranges over all other modules and objects.", "anchors": ["source/sync/io_can_sync.c:can_sync_rx_data_main", "include/li_can_slv/arch/io_can_main_hw_inline.h:can_main_synchron_rx"]}
{"id": "C11", "title": "A transmitted synchronous frame is an untorn snapshot of the application data", "statement": "The eight data bytes given to the transmit conversion are the contents of the application's transmit object at one single instant, for every interleaving of the copy with application writers that are excluded while interrupts are disabled.", "quantifier": "every interleaving of word-wise copying with writes of the application", "why_tests_cant": "Torn reads depend on the schedule.", "anchors": ["source/sync/io_can_sync.c:can_sync_tx_data_main"]}
{"id": "C12", "title": "CAN identifiers are collision free and decode to their module", "statement": "For module numbers 1..128 and objects 0..3, the identifiers computed for system transmit, synchronous transmit/receive, asynchronous control and asynchronous data are at most 0x7FF, pairwise different for different (class, module, object), and the receive handlers recover exactly the module number and object from them.", "quantifier": "all module numbers and objects, all classes", "why_tests_cant": "Full cross product of the identifier space (and it fails just outside of it).", "anchors": ["include/li_can_slv/config/li_can_slv_config_defines.h", "source/core/io_can_main.c:can_main_sync_process_tx_data_cnfg", "source/core/io_can_main.c:can_main_send_queue_system_tx", "source/sync/io_can_sync_handler.c:can_sync_handler_rx", "source/async/io_can_async_handler.c:can_async_handler_rx"]}
{"id": "C13", "title": "System messages are accepted only with DLC 8", "statement": "A system message with any DLC other than 8 is answered with the DLC error and causes no transmission, no callback and no change of configuration, baud rate, mode, module number, silent state or cycle time.", "quantifier": "every DLC, module number, payload and state", "why_tests_cant": "Every command times every DLC.", "anchors": ["source/sys/io_can_sys.c:can_sys_msg_rx"]}
{"id": "C14", "title": "Messages for unknown module numbers are ignored", "statement": "A direct (non-broadcast) system message whose module number belongs to no table entry returns success and changes nothing; an unknown or unimplemented command on a known module changes nothing except being reported as an error.", "quantifier": "every state, module number and payload", "why_tests_cant": "All module numbers times all commands times all table contents.", "anchors": ["source/sys/io_can_sys.c:can_sys_msg_rx", "source/config/io_can_config.c:can_config_module_nr_valid"]}
{"id": "C15", "title": "Status request is answered by the addressed modules", "statement": "A direct status request sends exactly one acknowledge, with the module's number, its four type characters and the low 24 bits of the serial number; a broadcast sends one acknowledge per configured awake module in table order; in listen-only mode nothing is sent. After the acknowledges all queued errors are sent in order and the queue is empty.", "quantifier": "every table, serial number, error queue content and mode", "why_tests_cant": "Depends on table contents and queue length.", "anchors": ["source/sys/io_can_sys.c:can_sys_msg_rx", "source/sys/io_can_sys.c:can_sys_status_ackn", "source/sys/io_can_sys.c:can_sys_send_error_full"]}
{"id": "C16", "title": "Version request is answered with the port's version data", "statement": "A version request makes each addressed awake module send its two version acknowledges whose bytes decode (big endian) to the boot kernel version, software version, ident number and change index provided by the port.", "quantifier": "all version values and tables", "why_tests_cant": "Byte packing over the full value ranges.", "anchors": ["source/sys/io_can_sys.c:can_sys_version_ackn"]}
{"id": "C17", "title": "The module number changes only on an authorised direct request", "statement": "In any history of received frames, the module number of a table entry changes only in response to a direct change-module-number message addressed to that entry's current number and carrying the node's serial number, only if the registered validator (if any) accepts it, and then to exactly the requested number; afterwards all identifiers of the module are those of the new number.", "quantifier": "every frame history, validator and serial number", "why_tests_cant": "A safety property over all histories.", "anchors": ["source/sys/io_can_sys.c:can_sys_msg_rx", "source/config/io_can_config.c:can_config_change_module_nr", "source/config/io_can_config.c:li_can_slv_config_change_module_nr_and_identifiers"]}
{"id": "C18", "title": "Every node can be addressed by its serial number", "statement": "For every serial number the port may return, the change-module-number, change-type and silent/awake messages carrying that node's serial number as announced in its status acknowledge are accepted.", "quantifier": "all 32-bit serial numbers", "why_tests_cant": "Fails only for serial numbers the tests do not use.", "anchors": ["source/sys/io_can_sys.c:check_if_serial_number_is_valid_from_can_data", "source/sys/io_can_sys.c:can_sys_status_ackn"]}
{"id": "C19", "title": "Baud rate change is broadcast-only and leaves the node in its previous mode", "statement": "A change-baud-rate message is refused when sent directly; a broadcast one switches the current rate to the requested rate iff that rate is in the table, leaves it unchanged otherwise, and in every case where the hardware accepts the change the node is afterwards in the mode it had before.", "quantifier": "every requested 16-bit rate, baud rate table, mode and hardware outcome", "why_tests_cant": "All 65536 rates times tables times hardware failures.", "anchors": ["source/sys/io_can_sys.c:can_sys_msg_rx", "source/config/io_can_config.c:can_config_set_baudrate", "source/core/io_can.c:li_can_slv_set_node_mode"]}
{"id": "C20", "title": "Stay-silent/awake needs the serial number, type and number of the module", "statement": "A stay-silent or awake message changes the silent state of a module only if it is direct, addressed to the module's number, and carries the node's serial number and the module's four type characters; it then changes only that module.", "quantifier": "every frame history", "why_tests_cant": "Safety over all payloads.", "anchors": ["source/sys/io_can_sys.c:can_sys_set_silent_awake"]}
{"id": "C21", "title": "First-request callbacks run at most once", "statement": "The first-status-request callback runs at the first accepted status request after initialisation and never again; the first-process-request callback runs at the first process request and never again, in every history.", "quantifier": "every frame history", "why_tests_cant": "'Never again' ranges over unbounded histories.", "anchors": ["source/sys/io_can_sys.c:can_sys_msg_rx", "source/sync/io_can_sync.c:li_can_slv_sync_process_request_rx"]}
{"id": "C22", "title": "System time messages deliver the encoded time", "statement": "A current-system-time message hands to the callback the big-endian 32-bit time, the signed time zone offset and the daylight flag contained in the frame, for all values, and nothing if no callback is registered.", "quantifier": "all times, offsets and flags", "why_tests_cant": "Full 32-bit value range and sign handling.", "anchors": ["source/sys/io_can_sys.c:can_sys_msg_rx"]}
{"id": "C23", "title": "Errors are reported first-in first-out", "statement": "Errors entered below the capacity of the error queue are read back exactly in the order they were entered, each with its own module number, code, additional information, priority and group, and none is lost or duplicated, for every interleaving of entering and reading that never fills the queue.", "quantifier": "every sequence of enter/read operations on a queue of any size that stays below the overflow limit", "why_tests_cant": "Ring indices wrap only after long histories.", "anchors": ["source/error/io_can_error.c:can_error_sys_error_send_full", "source/error/io_can_error.c:can_error_sys_error_get_full", "source/error/io_can_error.c:can_error_sys_error_count"]}
{"id": "C24", "title": "The error queue survives overflow", "statement": "When errors arrive faster than they are read, the oldest errors are kept, one 'queue full' entry is appended, further errors are rejected with a report, and after reading the queue works as before; no access leaves the queue storage.", "quantifier": "every sequence of enter/read operations including overflow", "why_tests_cant": "The defect needs an overflow at a particular ring position followed by more traffic.", "anchors": ["source/error/io_can_error.c:can_error_sys_error_send_full"]}
{"id": "C25", "title": "Peeking an error returns the entry a reader would get", "statement": "Peeking index k returns, without changing the queue, the (k+1)-th entry that subsequent reads would return.", "quantifier": "every queue history and index", "why_tests_cant": "Depends on where reading has advanced the ring.", "anchors": ["source/error/io_can_error.c:can_error_sys_error_peek"]}
{"id": "C26", "title": "Error frames are faithful and rate limited", "statement": "Each process request sends at most one queued error, the oldest one; the frame's eight bytes decode to the error's code, additional information, priority and group/subgroup, and its identifier is that of the reporting module (or of the main module if the recorded number is not a valid module number).", "quantifier": "every error value and history", "why_tests_cant": "Full value ranges and history of the queue.", "anchors": ["source/sync/io_can_sync_handler.c:can_sync_handler_rx", "source/sys/io_can_sys.c:can_sys_send_error_full", "source/error/io_can_error.c:error_syserr_send"]}
{"id": "C27", "title": "16-bit service codes expand without loss", "statement": "Expanding a 16-bit internal error code to the 32-bit message code and extracting code, subgroup and group yields the original code, its subgroup and the CAN group; different internal codes give different message codes.", "quantifier": "all 65536 codes", "why_tests_cant": "Whole code space.", "anchors": ["include/li_can_slv/error/io_can_errno.h:MSG_SG_EXPAND", "source/error/io_can_error.c:error_syserr_send"]}
{"id": "C28", "title": "Modules are added to consecutive table positions up to the maximum", "statement": "For every sequence of add-module calls the k-th successful call occupies table position k-1 with the given type, objects and data pointers; the call after the table is full is refused with an error and changes nothing.", "quantifier": "every sequence of module descriptions and numbers, every table size", "why_tests_cant": "All call sequences.", "anchors": ["source/config/io_can_config.c:can_config_add_module", "source/config/io_can_config.c:can_config_set_module"]}
{"id": "C29", "title": "Module numbers are unique after any sequence of additions", "statement": "After any sequence of add-module calls following initialisation, all configured modules have pairwise different numbers; a requested number outside 2..124 or already in use is replaced by a default number, and reuse is reported.", "quantifier": "every sequence of additions with arbitrary requested numbers", "why_tests_cant": "Collisions between requested and default numbers depend on the order.", "anchors": ["source/config/io_can_config.c:can_config_add_module", "source/config/io_can_config.c:can_config_set_module"]}
{"id": "C30", "title": "Module numbers stay unique after number changes", "statement": "After any sequence of additions and accepted number changes no two configured modules share a module number.", "quantifier": "every sequence of additions and number changes", "why_tests_cant": "Needs a particular change request.", "anchors": ["source/config/io_can_config.c:can_config_change_module_nr", "source/config/io_can_config.c:li_can_slv_config_change_module_nr_and_identifiers"]}
{"id": "C31", "title": "Number changes of unknown modules are refused", "statement": "Changing the number of a (type, number) pair that is not configured reports an error and changes no memory.", "quantifier": "every table and argument", "why_tests_cant": "The offending access is outside the table only when the search fails.", "anchors": ["source/config/io_can_config.c:li_can_slv_config_change_module_nr_and_identifiers"]}
{"id": "C32", "title": "The receive filter accepts every message for the node's modules", "statement": "After any number change the acceptance mask programmed for the system message object accepts the broadcast identifier and the system identifier of every configured module.", "quantifier": "every set of module numbers", "why_tests_cant": "All subsets of module numbers.", "anchors": ["source/config/io_can_config.c:li_can_slv_config_change_module_nr_and_identifiers"]}
{"id": "C33", "title": "Message objects are never shared", "statement": "Every receive object of every added module and every control object gets its own hardware message object, different from the reserved ones; when none is left the addition reports an error instead of reusing one.", "quantifier": "every sequence of additions and number of hardware objects", "why_tests_cant": "Exhaustion and interaction with fixed objects.", "anchors": ["source/arch/canpie_adapter/io_can_main_hw.c:can_main_hw_get_next_free_msg_obj", "source/core/io_can_main.c:can_main_define_msg_obj", "source/config/io_can_config.c:can_config_set_module"]}
{"id": "C34", "title": "Received frames are dispatched to the module owning the message object", "statement": "For every sequence of receive-object registrations with distinct message objects, looking up a registered message object yields the table position it was registered for, and an unregistered one yields an error.", "quantifier": "all registration sequences up to capacity", "why_tests_cant": "All tables.", "anchors": ["include/li_can_slv/arch/io_can_main_hw_inline.h:can_main_synchron_rx", "source/core/io_can_main.c:can_main_msg_obj_rx_data_cnfg"]}
{"id": "C35", "title": "Asynchronous control messages are queued first-in first-out for awake modules only", "statement": "For every interleaving of reception and processing, control messages for configured awake modules are processed in order of arrival with their module number and all eight bytes intact, messages for unknown or silent modules are dropped, and a full queue rejects the newest message with an error without disturbing the queued ones.", "quantifier": "every interleaving and queue length", "why_tests_cant": "Ring wrap-around over long histories.", "anchors": ["source/async/io_can_async.c:can_async_send_data_to_async_ctrl_rx_queue", "source/core/io_can.c:li_can_slv_process"]}
{"id": "C36", "title": "Asynchronous data is transmitted in order without loss or duplication", "statement": "Every accepted asynchronous data message is handed to the controller exactly once and in order with its identifier, DLC and bytes, even if the controller refuses some attempts; a message offered to a full queue or with an invalid DLC is refused and leaves the queue unchanged.", "quantifier": "every interleaving of enqueue and transmit attempts with arbitrary controller refusals", "why_tests_cant": "Arbitrary failure patterns and ring wrap-around.", "anchors": ["source/async/io_can_async.c:can_async_send_data_to_async_data_tx_queue", "source/async/io_can_async.c:can_async_handle_async_data_tx_queue"]}
{"id": "C37", "title": "The asynchronous transmit queue tolerates preemption", "statement": "The queue's fill count stays equal to the number of queued messages even if the transmit handler interrupts the enqueueing task between any two memory accesses.", "quantifier": "all interleavings at memory access granularity", "why_tests_cant": "Schedules cannot be enumerated by tests.", "anchors": ["source/async/io_can_async.c:can_async_send_data_to_async_data_tx_queue", "source/async/io_can_async.c:can_async_handle_async_data_tx_queue"]}
{"id": "C38", "title": "The download buffer is a faithful bounded FIFO", "statement": "For every sequence of adding bytes, reading bytes, removing trailing bytes and querying the length, the buffer behaves like a FIFO of at most its size: reads return bytes in the order added, overflow and underflow are reported without effect on the contents, trailing removal drops the newest bytes, and no access leaves the storage.", "quantifier": "every operation sequence and buffer size", "why_tests_cant": "Ring wrap-around at every possible offset.", "anchors": ["source/xload/li_can_slv_xload_buffer.c"]}
{"id": "C39", "title": "Buffer checkpoint and rollback replays the bytes", "statement": "After storing the buffer state, reading any number of bytes and restoring, the same bytes are read again, also if new bytes arrived in between.", "quantifier": "every operation sequence between store and restore", "why_tests_cant": "The failing order needs an interleaved add.", "anchors": ["source/xload/li_can_slv_xload_buffer.c:dload_store_buf_state", "source/xload/li_can_slv_xload_buffer.c:dload_restore_buf_state"]}
{"id": "C40", "title": "Hexadecimal numbers in the download stream are decoded exactly", "statement": "Reading a hexadecimal byte, 16-bit or 32-bit number returns the value its documented 2, 2 or 4 hexadecimal characters denote, for upper and lower case and all values, and consumes exactly these characters.", "quantifier": "all digit strings and buffer states", "why_tests_cant": "All 2^32 values and ring offsets.", "anchors": ["source/xload/li_can_slv_xload_buffer.c:dload_get_str_byte", "source/xload/li_can_slv_xload_buffer.c:dload_get_str_uint16", "source/xload/li_can_slv_xload_buffer.c:dload_get_str_uint32", "source/xload/li_can_slv_xload_buffer.c:dload_hexchar_to_uint32_internal"]}
{"id": "C41", "title": "Component names survive the six-bit packing", "statement": "The component name recovered from a short version (or upload info) request is the eight-character name the master packed into six bytes, for every name over the character range 0x20..0x5F; the long requests and the two start requests recover all eight bytes unchanged.", "quantifier": "all eight-character names", "why_tests_cant": "64^8 names.", "anchors": ["source/xload/li_can_slv_xload.c:li_can_slv_dload_version_request_short", "source/xload/li_can_slv_xload.c:li_can_slv_dload_start_request1"]}
{"id": "C42", "title": "A downloaded block reaches the application byte for byte", "statement": "For every block of data sent as seven-byte data messages followed by a matching block-end message, the block handler finds in the buffer exactly the block's bytes in order, without the filler bytes of the last message, the block is acknowledged, and the stack is ready for the next block; a wrong number of data messages, or data that does not fit the buffer, terminates the download with an error message and without a call of the block handler.", "quantifier": "all block contents and lengths that fit the buffer, any number of consecutive blocks", "why_tests_cant": "All lengths modulo seven, all ring offsets, any number of blocks.", "anchors": ["source/xload/li_can_slv_xload.c:li_can_slv_dload_data", "source/xload/li_can_slv_xload.c:li_can_slv_dload_data_block_end"]}
{"id": "C43", "title": "A running download cannot be disturbed by another request", "statement": "While a download is in progress a second start request is refused and the running download stays in progress and can be completed.", "quantifier": "every request history", "why_tests_cant": "Needs a second master at the wrong time.", "anchors": ["source/xload/li_can_slv_xload.c:li_can_slv_dload_start_request2", "source/xload/li_can_slv_xload.c:li_can_slv_dload_termination"]}
{"id": "C44", "title": "Uploaded data is reassembled exactly by the receiver", "statement": "The data messages and block end sent for an upload block contain exactly the block's bytes in order, padded with zero in the last message, with the byte and object counts of the block, for every block of an upload.", "quantifier": "all block contents, lengths and numbers of blocks", "why_tests_cant": "All lengths modulo seven; state carried from block to block.", "anchors": ["source/xload/li_can_slv_xload.c:li_can_slv_uload_data_from_buffer", "source/xload/li_can_slv_xload.c:li_can_slv_uload_data_block_end"]}
{"id": "C45", "title": "Handlers are set once", "statement": "Every registration of a download or upload handler and of the system time, factory reset and reconnect callbacks accepts the first non-null handler; later ones are reported (transfer handlers) or ignored (the others) and never replace it, in every call sequence.", "quantifier": "all registration sequences", "why_tests_cant": "Unbounded sequences.", "anchors": ["source/xload/li_can_slv_xload.c", "source/sys/io_can_sys.c:can_sys_set_system_time_cbk"]}
{"id": "C46", "title": "Persistent download information is never half-updated", "statement": "After power loss at any point during any sequence of updates of the persistent download information, the next initialisation sees either information whose checksum matches (some completed update) or resets it to the defaults; after initialisation and after every completed update the checksum matches.", "quantifier": "every update sequence and every crash point", "why_tests_cant": "Every crash point between two stores.", "anchors": ["source/xload/li_can_slv_xload_info.c"]}
{"id": "C47", "title": "A completed download is acknowledged exactly once after the restart", "statement": "If the stored mode is 'download acknowledge', the first successful start after the reset sends exactly one download end acknowledge for the stored module number and marks the mode as running, so that no later start sends it again.", "quantifier": "every stored info and every number of later starts", "why_tests_cant": "Exactly-once across restarts.", "anchors": ["source/api/li_can_slv_api.c:lcsa_start", "source/api/li_can_slv_api.c:lcsa_init", "source/xload/li_can_slv_xload_info.c"]}
{"id": "C48", "title": "The tunnel serves one peer at a time", "statement": "In every history of control messages the tunnel has at most one owner: an open request is acknowledged only when the tunnel was free, later open requests are denied without disturbing it until it is closed, after a denied open the tunnel is free again, and flow control acts only for its owner.", "quantifier": "every control message history and every port outcome", "why_tests_cant": "Protocol state over unbounded histories.", "anchors": ["source/async/io_can_async.c:can_async_rx"]}
{"id": "C49", "title": "Tunnel bytes are sent in order", "statement": "The payloads of the data messages produced for a sequence of bytes put into an open tunnel, concatenated, are exactly these bytes in order, with full messages of eight bytes and a shorter one only at a flush.", "quantifier": "all byte sequences and flush times", "why_tests_cant": "All sequences, all queue states.", "anchors": ["source/async/io_can_async.c:can_async_tunnel_putc", "source/async/io_can_async.c:can_async_tunnel_process_tx_data"]}
{"id": "C50", "title": "A tunnel session does not leak bytes of the previous one", "statement": "Bytes transmitted in a tunnel session were put into the tunnel during that session.", "quantifier": "all session histories", "why_tests_cant": "Needs a close at the wrong fill level.", "anchors": ["source/async/io_can_async.c:can_async_tunnel_putc", "source/async/io_can_async.c:can_async_rx"]}
{"id": "C51", "title": "During reconnect the node only listens", "statement": "While a reconnect search is running the controller is in listen-only mode, every baud rate tried is one of 125, 1000, 500, 250 kBaud visited cyclically, received frames are not processed, and when the search ends the node is operational again at the recorded rate.", "quantifier": "every history of interrupts, error codes and times", "why_tests_cant": "State machine over unbounded event histories.", "anchors": ["source/core/io_can_reconnect.c:li_can_slv_reconnect_process", "source/core/io_can_reconnect.c:can_reconnect_next_baudrate", "source/core/io_can_reconnect.c:can_reconnect_off", "source/arch/canpie_adapter/io_can_main_hw_handler.c:can_main_hw_handler_rx"]}
{"id": "C52", "title": "A start-up search that hears traffic keeps the rate it heard it on", "statement": "If a valid message is received during the start-up search, the node afterwards runs at the baud rate at which the message was received.", "quantifier": "every event history", "why_tests_cant": "Depends on whether the rate was switched before the first message.", "anchors": ["source/core/io_can_reconnect.c:can_reconnect_on", "source/core/io_can_reconnect.c:can_reconnect_off"]}
{"id": "C53", "title": "Initialisation reports the first failure and runs nothing after it", "statement": "For every combination of outcomes of the initialisation steps, the returned code is that of the first failing step and no later step is executed; with all steps succeeding the result is success.", "quantifier": "all failure patterns", "why_tests_cant": "2^n failure patterns.", "anchors": ["source/core/io_can.c:li_can_slv_init"]}
{"id": "C54", "title": "Conversion codes are lossless and endian correct", "statement": "For every application value the transmit conversions produce the big-endian (network order) bytes, and the receive conversions invert them: bit, nibble, uint16, uint32, packed 3x20-bit and packed 12-bit formats.", "quantifier": "all application values and lengths", "why_tests_cant": "Full value ranges of packed formats.", "anchors": ["verify/io_app_conv/io_app_convc.c"]}
{"id": "C55", "title": "Type and number identify a module consistently", "statement": "For every table, the lookups by type, by number and by type and number agree: they succeed iff such a configured module exists and return the position of the first match, and the getters return that position's type and number.", "quantifier": "every table", "why_tests_cant": "All tables, including duplicates.", "anchors": ["source/config/io_can_config.c:can_config_module_nr_valid", "source/config/io_can_config.c:can_config_module_type_valid", "source/config/io_can_config.c:can_config_module_valid", "source/config/io_can_config.c:can_config_get_module_nr_by_type"]}
{"id": "C56", "title": "Main and monitor disagreement invalidates the image", "statement": "In the main/monitor build a module's image is valid iff, in the cycle, each receive object arrived exactly once on both controllers with identical configured bytes and each transmit object was observed exactly once by the monitor with the bytes that were sent.", "quantifier": "every history of frames on both controllers", "why_tests_cant": "Product of two frame histories.", "anchors": ["source/sync/io_can_sync.c:can_sync_rx_data_mon", "source/sync/io_can_sync.c:can_sync_tx_data_mon", "source/sync/io_can_sync.c:li_can_slv_sync_check_process_image_module"]}
{"id": "C57", "title": "Without an error queue the newest error is the pending one", "statement": "In the build without an error queue, after every sequence of entering and reading errors exactly one error is pending if one was entered since the last reading and none otherwise, and reading returns the error entered last with its module number, code, additional information, priority and group.", "quantifier": "every sequence of enter/read operations", "why_tests_cant": "All histories.", "anchors": ["source/error/io_can_error.c:can_error_sys_error_send_full", "source/error/io_can_error.c:can_error_sys_error_get_full"]}
{"id": "C58", "title": "A successful start leaves the stack running and a failed one reports it", "statement": "The start function returns success iff setting the baud rate and going operational succeeded, and after a success the stack state is 'running' with the controller operational; a failure is returned to the caller and leaves the stack state as it was.", "quantifier": "every stored information, hardware outcome and history of start and reset calls", "why_tests_cant": "All combinations of outcomes and stored states.", "anchors": ["source/api/li_can_slv_api.c:lcsa_start"]}
{"id": "C59", "title": "Partly filled tunnel messages wait for more bytes, but not for ever", "statement": "A partly filled tunnel message is transmitted 50 ms after its last byte was put and not before.", "quantifier": "every history of bytes and flush calls and every value of the tick counter", "why_tests_cant": "Depends on the absolute value of the tick counter.", "anchors": ["source/async/io_can_async.c:can_async_tunnel_process_tx_data"]}
{"id": "C60", "title": "Putting a byte into the tunnel returns", "statement": "Every call that puts a byte into the tunnel returns, with success or an error, whatever the controller does.", "quantifier": "every history and every behaviour of the controller", "why_tests_cant": "A loop that waits for an interrupt.", "anchors": ["source/async/io_can_async.c:can_async_tunnel_putc"]}
{"id": "C61", "title": "A search settles on a rate only after activity on it", "statement": "A search for the baud rate ends only if, since its current rate was chosen, a frame was received, or ten calls of the process function found a Bit0 error without another error in between, or, for the start-up search, the no-traffic time is over.", "quantifier": "every build option and every history of frames, bus states, error codes and times", "why_tests_cant": "State machine over unbounded event histories.", "anchors": ["source/core/io_can_reconnect.c:li_can_slv_reconnect_process", "source/core/io_can_reconnect.c:can_reconnect_off"]}
{"id": "C62", "title": "A start-up search without traffic ends with the configured rate", "statement": "If no frame arrives, the start-up search goes on for the no-traffic time, and the first call of the process function after it makes the node operational at the rate given to the initialisation.", "quantifier": "every start time, every sequence of process calls with any bus state and error code", "why_tests_cant": "Depends on the value of the free running clock.", "anchors": ["source/core/io_can_reconnect.c:li_can_slv_reconnect_process", "source/core/io_can_reconnect.c:li_can_slv_reconnect_startup"]}
{"id": "C63", "title": "Version and upload info requests get exactly one answer, and the right one", "statement": "Every version or upload info request received by a module that listens calls the registered handler and is then answered exactly once: with the index, checksum and identification (or size) the handler left, most significant byte first, or with the error it returned; the stack sends nothing if the handler says that it answers itself; if no handler is registered the answer is the error 'unknown component'.", "quantifier": "all names, indices and handler behaviours, after every history", "why_tests_cant": "All handler behaviours and all values of the answered numbers.", "anchors": ["source/xload/li_can_slv_xload.c:dload_version_request_pre_handle", "source/xload/li_can_slv_xload.c:li_can_slv_dload_version_answer", "source/xload/li_can_slv_xload.c:uload_info_request_pre_handle", "source/xload/li_can_slv_xload.c:li_can_slv_uload_info_answer"]}
{"id": "C64", "title": "Control messages to absent or silent modules have no effect", "statement": "A control message to a module number that is not in use, or to a module that is silent, is never answered and changes nothing: removing it from a history changes neither the final state nor anything observable. The same holds for messages with an unknown command.", "quantifier": "every history, every position in it and every message", "why_tests_cant": "A negative over all messages and histories.", "anchors": ["source/async/io_can_async.c:can_async_rx"]}
{"id": "C65", "title": "A block of the announced size fits into the buffer", "statement": "The block size the stack announces when the application starts a download is such that every block up to this size, filled up to whole messages, fits into the download buffer, even with some bytes of the previous block left.", "quantifier": "all buffer sizes and blocks", "why_tests_cant": "All sizes modulo seven.", "anchors": ["source/xload/li_can_slv_xload.c:li_can_slv_dload_start", "include/li_can_slv/xload/li_can_slv_xload.h"]}
{"id": "C66", "title": "Uploads keep the requested pause between messages", "statement": "Between two data messages of an upload, and before the first one, more ticks than the delay of the upload request pass: n messages take at least n*(delay+1) ticks.", "quantifier": "all blocks, delays and clock readings", "why_tests_cant": "Depends on the values of the free running clock.", "anchors": ["source/xload/li_can_slv_xload.c:li_can_slv_uload_data_from_buffer", "source/xload/li_can_slv_xload.c:li_can_slv_uload_start_request2"]}
{"id": "C67", "title": "The baud rate after a restart", "statement": "The initialisation of the interface uses the baud rate stored by a download if the persistent information is intact and says that a download is under way, and otherwise, in particular after a checksum error, the baud rate given by the application.", "quantifier": "all contents of the persistent memory", "why_tests_cant": "All memory contents, including damaged ones.", "anchors": ["source/api/li_can_slv_api.c:lcsa_init", "source/xload/li_can_slv_xload_info.c"]}
{"id": "C68", "title": "No frame sequence leads to undefined behaviour", "statement": "After a successful start no sequence of frames the controller accepts, mixed in any way with API calls whose arguments are valid (existing objects and conversion functions, existing modules, 8-byte transmit objects), makes the library read or write outside its tables and the application's objects, or call a missing function; every call returns.", "quantifier": "every history of frames, system commands, number and type changes, API calls, errors and hardware failures", "why_tests_cant": "Every interleaving of frames with API calls over an unbounded history.", "anchors": ["source/sync/io_can_sync.c:can_sync_rx_data_main", "source/core/io_can_main.c", "source/config/io_can_config.c", "source/error/io_can_error.c", "source/sys/io_can_sys.c:can_sys_msg_rx"]}
{"id": "C69", "title": "A module type changes only by an authorised message, and takes effect completely", "statement": "A received frame changes the type, the objects or the data pointers of a configured module only if it is a change-type message with the module's number, the node's serial number and the type registered for that module. Such a message gives the module the registered type, objects and pointers, calls the registered function once with the type and keeps its number, silent state, other modules, data and errors. From then on exactly the objects of the new type are received and sent, with the identifiers of the module's number, and the module is supervised, as if it had been added with this type.", "quantifier": "every history of frames and API calls, every registration", "why_tests_cant": "The type change meets every state of the tables: silent modules, later modules, any number of objects.", "anchors": ["source/sys/io_can_sys.c:can_sys_msg_rx", "source/config/io_can_config.c:can_config_change_module_type", "source/config/io_can_config.c:can_config_change_module_type_add"]}
{"id": "C70", "title": "A second initialisation starts from scratch", "statement": "After the interface is shut down and initialised again, with whatever history before, it behaves as after the first initialisation: no module is configured, no process data is sent or delivered for modules of the time before, and modules added afterwards are received, sent, supervised and silenced as on a fresh start.", "quantifier": "every history before the second initialisation, every configuration after it", "why_tests_cant": "All leftovers of an arbitrary history in the static tables.", "anchors": ["source/core/io_can.c:li_can_slv_deinit", "source/core/io_can.c:li_can_slv_init", "source/arch/canpie_adapter/io_can_main_hw.c:can_main_hw_deinit", "source/config/io_can_config.c:can_config_init"]}
{"id": "C71", "title": "Module numbers can be changed any number of times", "statement": "A change of a module number to a valid number succeeds however often numbers were changed before, and after every change, successful or not, the node listens to system messages and asynchronous data for the number it has.", "quantifier": "every history, every sequence of number changes from the bus or the API", "why_tests_cant": "An unbounded number of changes; the hardware has finitely many message objects.", "anchors": ["source/config/io_can_config.c:li_can_slv_config_change_module_nr_and_identifiers", "source/config/io_can_config.c:can_config_get_async_ctrl_rx_obj", "source/arch/canpie_adapter/io_can_main_hw.c:can_main_hw_get_next_free_msg_obj"]}
{"id": "C72", "title": "The monitor takes every frame of its modules once and for the right module", "statement": "With a second, monitoring controller: after the initialisation, any additions of modules (successful or not) and successful number changes of completely added modules, every frame with an identifier of a completely added module is taken by exactly one message object of the monitor and processed for this module and in this direction (data from the master or frame of the own main controller); requests for process data are taken as such, system messages are ignored, and no other frame is taken. A successful addition or number change sets up the module completely and leaves the others alone.", "quantifier": "every sequence of additions and number changes, every failure of the hardware and of the main controller's part, every identifier, with different module numbers from 1 to 128", "why_tests_cant": "All sequences of configuration steps with failures at any place.", "anchors": ["source/core/io_can_mon.c:can_mon_define_msg_obj", "source/core/io_can_mon.c:can_mon_msg_obj_rx_data_cnfg", "source/arch/canpie_adapter/io_can_mon_hw.c:can_mon_hw_define_msg_obj", "source/config/io_can_config.c:can_config_set_module", "source/config/io_can_config.c:li_can_slv_config_change_module_nr_and_identifiers", "source/sync/io_can_sync_handler.c:can_sync_handler_rx_mon"]}
{"id": "C73", "title": "Every configured module is monitored", "statement": "With a monitoring controller, every module that can be added while a table entry and message objects are free is monitored completely, whatever numbers the modules are given or get by default, and configuration steps of one module do not take the monitoring of another one away.", "quantifier": "every sequence of additions and number changes", "why_tests_cant": "All sequences of configuration steps, up to the limits of the tables.", "anchors": ["source/core/io_can_mon.c:can_mon_msg_obj_tx_data_cnfg", "source/config/io_can_config.c:can_config_set_module", "source/config/io_can_config.c:can_config_add_module", "source/config/io_can_config.c:li_can_slv_config_change_module_nr_and_identifiers"]}
{"id": "C74", "title": "Main and monitor controller run at the same rate", "statement": "The main and the monitor controller have the same bit rate after every history of starts, mode changes, rate changes by the library and by the bus, and searches for the rate. A change to a known rate that reports success has set both; a refused one has changed neither, and the current rate reported by the library is theirs.", "quantifier": "every history, every answer of the driver", "why_tests_cant": "Any order of the operations and any failing driver call.", "anchors": ["source/config/io_can_config.c:can_config_set_baudrate", "source/arch/canpie_adapter/io_can_mon_hw.c:can_mon_hw_set_baudrate", "source/arch/canpie_adapter/io_can_main_hw.c:can_main_hw_set_baudrate", "source/core/io_can_mon.c"]}
{"id": "C75", "title": "The node mode is the mode of both controllers", "statement": "After every history an operational node has both controllers started, a listening one has both listening, and a stopped one has both stopped; a start or mode change that a controller refuses reports an error.", "quantifier": "every history, every answer of the driver", "why_tests_cant": "Any order of the operations and any failing driver call.", "anchors": ["source/core/io_can.c:li_can_slv_set_node_mode", "source/core/io_can_main.c:can_main_enable", "source/core/io_can_mon.c:can_mon_enable", "source/arch/canpie_adapter/io_can_mon_hw.c:can_mon_hw_enable", "source/api/li_can_slv_api.c:lcsa_start"]}
{"id": "C76", "title": "A search for the rate disturbs nobody with either controller", "statement": "While a node with a monitor controller searches for the rate of the bus, neither controller is active on the bus at any moment; after every step both listen at the next rate, and at the end both are started at the rate found.", "quantifier": "every state in which a search step is made, every moment between two driver calls", "why_tests_cant": "Every moment inside of every step from every state.", "anchors": ["source/core/io_can_reconnect.c:can_reconnect_next_baudrate", "source/core/io_can_reconnect.c:can_reconnect_off", "source/core/io_can_reconnect.c:li_can_slv_reconnect_on_main_node_online", "source/core/io_can.c:li_can_slv_set_node_mode"]}
{"id": "C77", "title": "Errors reported by the main program survive interrupts", "statement": "While the main program reports errors, interrupts report and read errors at any moment. As long as the error memory does not fill up, every reported error is read exactly once, with its own code, level, number, info byte and group, or is still stored, and nothing is read that was not reported.", "quantifier": "every sequence of reports of the main program, every moment of every report at which interrupts run, every sequence of calls made by the interrupts", "why_tests_cant": "The schedules of interrupts between the memory accesses of a call.", "anchors": ["source/error/io_can_error.c:can_error_sys_error_send_full", "source/error/io_can_error.c:can_error_sys_error_get_full", "source/error/io_can_error.c:can_error_init", "source/sys/io_can_sys.c", "source/sync/io_can_sync_handler.c"]}
{"id": "C78", "title": "Switching modules silent or awake does not disturb the others, with interrupts at any moment", "statement": "While the application switches modules silent or awake, process requests and switching messages arrive at any moment. Afterwards every module transmits all its objects with the data of the application if the last order for it was to be awake, and nothing if it was to be silent; a process request in between gets either all objects of a module or none, and every frame carries the data of the application.", "quantifier": "every history of switches by the application, every moment of each switch at which interrupts run, every sequence of process requests and switching messages, every configuration of up to 8 modules with up to 4 objects", "why_tests_cant": "The schedules of interrupts between the memory accesses of a call.", "anchors": ["source/config/io_can_config.c:can_config_set_module_silent_awake", "source/config/io_can_config.c:can_config_sync_off", "source/config/io_can_config.c:can_config_sync_on", "source/core/io_can_main.c:can_main_synchron_tx_data_off", "source/core/io_can_main.c:can_main_synchron_tx_data_on", "source/core/io_can_main.c:can_main_sync_send_process_data"]}
{"id": "C79", "title": "A critical module takes no part in the process data", "statement": "From the moment the application declares a module critical until it declares it active again, a process request is answered without the objects of that module and with all objects of the other modules that are awake, no data frame for the module reaches the application, its receive objects hold the conversion of zero bytes, and the process image does not wait for it; the declaration changes nothing else.", "quantifier": "every history of additions, receptions, requests, system messages, switches and declarations", "why_tests_cant": "Declarations, switches by the application, switching messages of the master and requests in any order.", "anchors": ["source/config/io_can_config.c:can_config_set_critical", "source/config/io_can_config.c:can_config_set_active", "source/config/io_can_config.c:can_config_sync_off", "source/config/io_can_config.c:can_config_sync_on", "source/core/io_can_main.c:can_main_sync_send_process_data", "source/sync/io_can_sync.c:li_can_slv_sync_check_process_image"]}
{"id": "C80", "title": "Hooks and time functions stay with their module", "statement": "A hook registered for a module is called for that module and for no other, after any later change of numbers, types or states, until another one is registered in its place; hooks of the node likewise. A process request calls the request hooks of all configured modules once, in table order. A registration for a type and number nobody has is refused and changes nothing. The function given out for a module type returns, whenever it is called, the time of the last valid image of that module.", "quantifier": "every history of registrations, additions, receptions, requests, system messages and configuration changes, every later moment", "why_tests_cant": "The registration may lie arbitrarily far back, with any configuration changes in between.", "anchors": ["source/sync/io_can_sync.c:li_can_slv_sync_set_process_image_valid_cbk", "source/sync/io_can_sync.c:li_can_slv_sync_set_process_image_not_valid_cbk", "source/sync/io_can_sync.c:li_can_slv_sync_set_process_request_cbk", "source/sync/io_can_sync.c:li_can_slv_sync_set_process_time_valid_fnc", "source/sync/io_can_sync.c:li_can_slv_sync_check_process_image", "source/config/io_can_config.c:can_config_module_valid", "source/config/io_can_config.c:can_config_module_type_valid"]}
{"id": "C81", "title": "Announcements of the search come in pairs", "statement": "The application's callbacks for the beginning and the end of a search for the baud rate alternate, an end is of the kind (start-up or online) of the beginning before it, a search is running exactly when one is announced and not ended, and the rate told at the end is the one the controller then works with, in operational mode.", "quantifier": "every history of initialisations, starts, polls, receptions and states set by the application, every answer of the driver, every clock", "why_tests_cant": "The pairing is a statement about unbounded histories with arbitrary bus conditions.", "anchors": ["source/core/io_can_reconnect.c:li_can_slv_reconnect_startup", "source/core/io_can_reconnect.c:li_can_slv_reconnect_on_main_node_online", "source/core/io_can_reconnect.c:li_can_slv_reconnect_on_main_node_recovery", "source/core/io_can_reconnect.c:li_can_slv_reconnect_process", "source/core/io_can_reconnect.c:can_reconnect_off"]}
{"id": "C82", "title": "Period of the process requests with requests arriving during the call", "statement": "Reading the period and the cyclic check of the period, called by the main program while process requests arrive by interrupt at any of their memory accesses, give the result of the call before or after the requests: the period read is within the maximum, and the stored period is the distance of the last two requests or the time since the last one.", "quantifier": "every state, every maximum, every time of the calls and of the requests, every placement of the requests between the accesses", "why_tests_cant": "Interrupts between two machine accesses cannot be placed by a test of the compiled function.", "anchors": ["source/sync/io_can_sync.c:li_can_slv_sync_get_process_periode", "source/sync/io_can_sync.c:li_can_slv_sync_trigger_process_periode", "source/sync/io_can_sync.c:can_sync_rx_process_main", "source/core/io_can.c:li_can_slv_process"]}
{"id": "C83", "title": "Cycle time and factory reset told by the master", "statement": "The process cycle time is the one told last by the application or by a configuration message of the master, limited to the maximum, and nothing else changes it; a message with a longer time is reported as an error. A factory reset message calls the registered callback once with its parameter and changes nothing else; nothing but such a message calls it.", "quantifier": "every history, every message, every further operation", "why_tests_cant": "Absence of other effects and other causes is a statement about all operations in all states.", "anchors": ["source/sys/io_can_sys.c:can_sys_msg_rx", "source/sys/io_can_sys.c:li_can_slv_sys_set_factory_reset_cbk", "source/sync/io_can_sync.c:li_can_slv_sync_set_process_cycle_time"]}
{"id": "C84", "title": "Every received frame is handled by one service, once", "statement": "Whatever happened before, a frame that arrives at a message object is handled by at most one of process data of one module, process request, system messages, control messages and tunnel, and by none if it has a 29-bit identifier; a control message is handed over exactly once under the number of its identifier, and after a number change what arrives for the old number is dropped.", "quantifier": "every history, every message object, every frame", "why_tests_cant": "The objects are allocated and reallocated by additions and number changes in any order, with any failure of the hardware calls.", "anchors": ["source/arch/canpie_adapter/io_can_main_hw_handler.c:can_main_hw_handler_rx", "source/async/io_can_async_handler.c:can_async_handler_rx", "source/async/io_can_async_handler.c:can_async_handler_data_rx", "source/config/io_can_config.c:can_config_get_async_ctrl_rx_obj", "source/sync/io_can_sync_handler.c:can_sync_handler_rx"]}
{"id": "C85", "title": "The random delays before status answers keep nodes apart", "statement": "In a build with random status acknowledges, every status answer is delayed by less than 104 microseconds; two nodes with different serial numbers that hear the same requests do not wait equally long for ever; every possible delay is used.", "quantifier": "every serial number, every number of requests, every history before the initialisation", "why_tests_cant": "The sequence depends on a 32-bit seed and has a long period; tests see a few values only.", "anchors": ["source/sys/io_can_sys.c:li_can_slv_rand", "source/sys/io_can_sys.c:li_can_slv_seeding", "source/sys/io_can_sys.c:can_sys_init"]}
{"id": "C86", "title": "The query for a running transfer tells when one runs", "statement": "li_can_slv_xload_active answers yes exactly from the message that begins a download or an upload (or the application's own start) until an end acknowledge or a termination is sent, or received by a module that listens; asking changes nothing.", "quantifier": "every history of control messages, handler programs, calls of the application and registrations", "why_tests_cant": "Transfers are ended by errors of handlers, messages of the master and calls of the application, at any point and in any order.", "anchors": ["source/xload/li_can_slv_xload.c:li_can_slv_xload_active", "source/xload/li_can_slv_xload.c:li_can_slv_dload_termination", "source/xload/li_can_slv_xload.c:li_can_slv_dload_end_ackn", "source/async/io_can_async.c:can_async_rx"]}
{"id": "C87", "title": "A received frame acts by what was received only", "statement": "What the node does with a received frame depends on identifier, length, time and the received data bytes; it does not depend on what the memory of the receive buffer held before, for frames of every length.", "quantifier": "every build, state of the node, frame of 0 to 8 bytes and content of the uninitialised part of the buffer", "why_tests_cant": "A test runs with one content of the stack; a frame shorter than expected shows a difference only for some contents.", "anchors": ["source/arch/canpie_adapter/io_can_main_hw_handler.c:can_main_hw_handler_rx", "source/sync/io_can_sync_handler.c:can_sync_handler_rx", "source/async/io_can_async_handler.c:can_async_handler_rx", "source/async/io_can_async.c:can_async_rx"]}
{"id": "C88", "title": "The reception pauses after a reconnect for the configured time", "statement": "In builds that ignore received frames for a time after a reconnect, a frame is ignored while a search for the rate runs and for the configured time after the end of the last one, and at no other time; this holds for both controllers and for as long as the node runs.", "quantifier": "every history of searches, ends and receptions, every length of the pause and every time", "why_tests_cant": "The clock runs over after 49 days and the reconnect may end at any time before; a test sees minutes.", "anchors": ["source/arch/canpie_adapter/io_can_main_hw_handler.c:can_main_hw_handler_rx", "source/arch/canpie_adapter/io_can_mon_hw_handler.c:can_mon_hw_handler_rx", "source/core/io_can_reconnect.c:li_can_slv_reconnect_get_back_time_ms"]}
{"id": "C89", "title": "The lock of the error handler", "statement": "In builds with the lock of the error handler, no two evaluations of the controller's error state overlap, a call returns without evaluating only while another one is under way, the lock is free once all calls have returned, and a call leaves the interrupts as it found them.", "quantifier": "every sequence of calls from the main program and from interrupts at any moment, to any depth; and every interleaving of threads", "why_tests_cant": "The interrupt must come between two instructions; a test cannot place it there, nor try all depths.", "anchors": ["source/arch/canpie_adapter/io_can_main_hw_handler.c:can_main_hw_handler_error", "source/core/io_can.c:li_can_slv_process"]}
{"id": "C90", "title": "Accepted asynchronous data goes out, also after an outage of the bus", "statement": "An asynchronous data message whose call returns success is given to the controller during the call if the bus is available, and as soon as the bus is available again otherwise; after an outage the queue returns to normal and takes new messages.", "quantifier": "every sequence of calls, every outage (search for the rate running, controller refusing) of any length and every queue length", "why_tests_cant": "What is lost shows only after an outage that lasts for as many calls as the queue is long, and then for ever.", "anchors": ["source/async/io_can_async.c:can_async_send_data_to_async_data_tx_queue", "source/core/io_can_main_handler.c:can_main_handler_tx", "include/li_can_slv/arch/canpie_adapter/io_can_port.h:can_port_trigger_can_main_async_data_tx_queue"]}
{"id": "C91", "title": "A change of the number is one step on the bus", "statement": "While the application changes the number of a module, requests and process data of the master go on arriving. Every request is answered with all transmit objects of the module, and all of one answer carry the same number; a silent module stays silent; process data are given to the application as long as the module answers under the number they are addressed to. After the change everything is under the new number.", "quantifier": "every pair of valid numbers, every number of objects, every sequence of requests and data frames at every point between two memory accesses of the call", "why_tests_cant": "The interrupt has to fall between two particular instructions of the call.", "anchors": ["source/config/io_can_config.c:li_can_slv_config_change_module_nr_and_identifiers", "source/core/io_can_main.c:can_main_sync_process_tx_data_cnfg", "source/core/io_can_main.c:can_main_sync_send_process_data", "source/sync/io_can_sync.c:can_sync_rx_data_main"]}
{"id": "C92", "title": "A valid image holds the data of its cycle", "statement": "When the image of a module is declared valid, the application's memory of each of its receive objects holds the data of the one frame that was received for this object since the previous process request.", "quantifier": "every history, every cycle between two process requests, every module, object and conversion function", "why_tests_cant": "Stale or overwritten data look like good data; the verdict and the memory come from different places and must agree for every interleaving of frames, system messages and calls.", "anchors": ["source/sync/io_can_sync.c:can_sync_rx_data_main", "source/sync/io_can_sync.c:li_can_slv_sync_check_process_image", "source/config/io_can_config.c:can_config_sync_off"]}
{"id": "C93", "title": "Nodes with different module numbers never send the same identifier", "statement": "Every frame a node sends in a process data cycle, as an answer to a system message or as an error report carries an identifier of one of its own awake modules. Two nodes whose modules have different numbers therefore never send the same identifier.", "quantifier": "every pair of nodes, each with its own configuration and history, and every next operation of each", "why_tests_cant": "Two senders with one identifier break the arbitration of the bus. A test sees one node; the claim is about pairs of nodes and all their histories.", "anchors": ["source/config/io_can_config.c:li_can_slv_config_change_module_nr_and_identifiers", "source/sys/io_can_sys.c:can_sys_msg_rx", "source/sync/io_can_sync.c", "source/sys/io_can_sys.c:can_sys_send_error_full"]}
{"id": "C94", "title": "The download buffer may be read while data messages arrive", "statement": "An application that takes bytes from the download buffer in its main program gets every byte added by the receive interrupt exactly once and in order, and an empty buffer is reported only if it is empty.", "quantifier": "every buffer size, every sequence of data messages, removals and reads, and every moment of an interrupt within a read", "why_tests_cant": "The result depends on the position of the interrupt between two machine accesses of one C statement; no test can place it there for all cases.", "anchors": ["source/xload/li_can_slv_xload_buffer.c:xload_buffer_get_byte", "source/xload/li_can_slv_xload_buffer.c:dload_add_byte_to_buffer", "source/xload/li_can_slv_xload_buffer.c:dload_remove_bytes", "source/xload/li_can_slv_xload.c:li_can_slv_dload_data"]}
{"id": "C95", "title": "A node sends only in answer to the master, and a bounded number of frames", "statement": "Apart from asynchronous transfers, a node hands frames to the controller only while it handles a process request, a status request or a version request: at most one for each bit of the send register and one error for a process request, one for each addressed module and each recorded error for a status request, two for each addressed module for a version request. The number of frames of any history is bounded by its requests.", "quantifier": "every configuration, every history, every operation and every loss of frames", "why_tests_cant": "A bound over all histories and all application calls cannot be settled by any set of runs.", "anchors": ["source/core/io_can_main.c:can_main_sync_send_process_data", "source/core/io_can_main.c:can_main_send_queue_system_tx", "source/sys/io_can_sys.c:can_sys_msg_rx", "source/sync/io_can_sync_handler.c:can_sync_handler_rx"]}
{"id": "C96", "title": "A node without modules announces itself as unknown", "statement": "If the application added no module before the start, the start gives the node one module of type UKWN with number 125 and no process data: it then hears messages to all nodes and to 125 (or an error is recorded), answers every status request with one acknowledge naming UKWN and the serial number unless it is silent or listen-only, and never sends process data. If there are modules, the start leaves the configuration alone.", "quantifier": "every configuration, every history before and after the start without additions and number or type changes, every request, every behaviour of the controller", "why_tests_cant": "It must hold for every history around the start and every behaviour of the controller.", "anchors": ["source/api/li_can_slv_api.c:lcsa_start", "source/config/io_can_config.c:can_config_add_ukwn_module", "source/config/io_can_config.c:can_config_add_module", "source/sys/io_can_sys.c:can_sys_msg_rx"]}
{"id": "C97", "title": "Data messages that reach the user of the tunnel", "statement": "After an acknowledged opening of the tunnel for a module, and as long as no module is added and no number or type changes, the port of the tunnel receives exactly the data messages the bus carries for that module, unchanged, and nothing while the tunnel is closed. An opening is acknowledged only while the tunnel is closed and only for a number in the table that is not silent.", "quantifier": "every configuration, every history of node operations, control messages, tunnel calls and data messages before and after the opening, every data message", "why_tests_cant": "It must hold for every interleaving of node operations, control messages and data messages and for every identifier.", "anchors": ["source/async/io_can_async.c:can_async_rx", "source/async/io_can_async_handler.c:can_async_handler_data_rx", "source/core/io_can_main.c:can_main_define_msg_obj", "source/config/io_can_config.c:can_config_set_module", "source/config/io_can_config.c:li_can_slv_config_change_module_nr_and_identifiers"]}
{"id": "C98", "title": "A download block through the control receive queue", "statement": "With the receive queue between the bus and the download protocol, a block is delivered completely or not at all: the handler of block ends is called, with exactly the bytes of the block, only if every message of the block was accepted by the queue; if a data message was refused the download is terminated with an error; if the block end was refused nothing happens and it can be sent again. A queue with room for a block never refuses.", "quantifier": "every queue length, buffer size, history of the queue and of the download, block, handler, and schedule of arrivals and polls", "why_tests_cant": "It must hold for every interleaving of interrupts (arrivals) and main loop (polls) and every block and queue length.", "anchors": ["source/async/io_can_async.c:can_async_send_data_to_async_ctrl_rx_queue", "source/async/io_can_async.c:can_async_rx", "source/xload/li_can_slv_xload.c:li_can_slv_dload_data", "source/xload/li_can_slv_xload.c:li_can_slv_dload_data_block_end"]}
{"id": "C99", "title": "Backup and restoration", "statement": "What one stack uploads and a master passes on, message by message, to a module of another stack is restored there byte for byte: the application finds exactly the uploaded bytes and the download succeeds. If data messages get lost on the way the download ends with an error and no application sees any of it; if the block end never comes nothing happens. This must hold for every number of blocks.", "quantifier": "every data, every state of the uploading stack without a transfer, every history of the downloading stack, every handler, every set of lost messages", "why_tests_cant": "It relates two stacks and must hold for all data lengths, all histories of both and all ways to lose messages.", "anchors": ["source/xload/li_can_slv_xload.c:li_can_slv_uload_data_from_buffer", "source/xload/li_can_slv_xload.c:li_can_slv_dload_data", "source/xload/li_can_slv_xload.c:li_can_slv_dload_data_block_end", "source/async/io_can_async.c:can_async_rx"]}
{"id": "C100", "title": "Download messages act only within the download they belong to", "statement": "Data messages and block ends have an effect only while a download to their module is running: before a start, after the end, after a termination by either side, and for other modules of the node they call no handler and are not acknowledged.", "quantifier": "every history, every block, every point in a block for a termination, every distribution of the messages of a block over the modules of a node", "why_tests_cant": "It must hold at every point of every history; the interesting ones are messages still under way when a transfer ends.", "anchors": ["source/xload/li_can_slv_xload.c:li_can_slv_dload_data", "source/xload/li_can_slv_xload.c:li_can_slv_dload_data_block_end", "source/xload/li_can_slv_xload.c:li_can_slv_uload_termination", "source/async/io_can_async.c:can_async_rx"]}
{"id": "C101", "title": "Nodes with equal numbers are told apart by their serial numbers", "statement": "On a bus with several nodes of different serial numbers, one change-number message per node, in any order, gives every named module the number meant for it and leaves all other nodes as they were, whatever numbers the nodes have at the beginning.", "quantifier": "every number of nodes, every assignment of numbers to them at the beginning and in the messages, every order of the messages, every history before", "why_tests_cant": "The number of nodes, their numbers and the order of the messages are unbounded, and every message is received by every node.", "anchors": ["source/sys/io_can_sys.c:can_sys_msg_rx", "source/config/io_can_config.c:can_config_change_module_nr", "source/config/io_can_config.c:can_config_change_module_nr", "source/sys/io_can_sys.c:check_if_serial_number_is_valid_from_can_data"]}
{"id": "C102", "title": "Values cross the bus unchanged between platforms", "statement": "With the library's conversions for numbers of up to eight bytes, byte pairs, 16-bit and 32-bit numbers, the values an application has in a transmit object of one node (no changes of numbers and types before) are sent with the next process request, and any other node, of the same or the other byte order, that accepts a frame with these bytes for a receive object of the same kind has the same values in its application's memory.", "quantifier": "all values, kinds and sizes of objects, byte orders, all histories of the sender without number and type changes, all histories of the receiver, all contents of the driver's buffer behind the frame", "why_tests_cant": "All values for all pairs of platforms and all histories; the two platforms are not even available in one test run.", "anchors": ["source/sync/io_can_sync.c:can_sync_tx_data_main", "source/sync/io_can_sync.c:can_sync_rx_data_main", "verify/io_app_conv/io_app_convc.c:app_convc_tx_uint16", "verify/io_app_conv/io_app_convc.c:app_convc_main_rx_uint16"]}
{"id": "C103", "title": "A transfer can always be started anew", "statement": "Whatever messages, calls and handler actions came before, with or without a transfer left unfinished, a node whose handlers are registered can be downloaded and uploaded again: a download whose start request comes first is served completely, with every block delivered to the handlers and acknowledged, without a restart of the node.", "quantifier": "all histories of messages, calls, registrations and handler programs; all downloads with any number and contents of blocks that fit into the buffer; all uploaded blocks", "why_tests_cant": "The state left behind by all earlier histories, finished or not, decides whether the next transfer works; tests start from a few of them.", "anchors": ["source/xload/li_can_slv_xload.c:li_can_slv_dload_start_request1", "source/xload/li_can_slv_xload.c:li_can_slv_dload_start_request2", "source/xload/li_can_slv_xload.c:li_can_slv_uload_termination", "source/xload/li_can_slv_xload.c:dload_termination"]}
{"id": "C104", "title": "What the nodes answer to a status request is enough to address them", "statement": "On a bus with several nodes a master that asks all of them for their status gets answers that tell all modules apart. Any sequence of silent and awake orders it makes from these answers, by repeating the seven bytes after the first under the number the identifier shows, leaves every module of the bus as the last order made from its answer says, and as it was if there was none; a change-number message made from an answer gives exactly the module that answered its new number.", "quantifier": "all numbers of nodes with distinct serial numbers, all reachable states of them, all modules, all sequences of orders made from the answers", "why_tests_cant": "Tests look at single nodes and single messages; here the answers of all nodes have to differ and each message made from one of them must reach one module and leave all others of all nodes alone, in every order of messages.", "anchors": ["source/sys/io_can_sys.c:can_sys_status_ackn", "source/sys/io_can_sys.c:can_sys_set_silent_awake", "source/sys/io_can_sys.c:check_if_serial_number_is_valid_from_can_data", "source/sys/io_can_sys.c:can_sys_msg_rx"]}
{"id": "C105", "title": "Every pending error is announced", "statement": "An error that is pending in the node, with k others before it, is announced on the bus at the latest when k+1 more process requests have been handled, whatever messages, new errors and calls come in between. Errors leave the error memory only at process requests, one at a time, and at status requests, oldest first, and each of them is announced at that moment.", "quantifier": "all reachable states, all pending errors, all continuations of operations with enough process requests", "why_tests_cant": "A test reports one error and sees its message; that no sequence of further errors, requests and status requests loses or overtakes a pending error is a statement about all histories.", "anchors": ["source/sync/io_can_sync_handler.c:can_sync_handler_rx", "source/sys/io_can_sys.c:can_sys_send_error_full", "source/error/io_can_error.c:can_error_sys_error_send_full", "source/error/io_can_error.c:can_error_sys_error_get_full"]}
{"id": "C106", "title": "In a process cycle every object of the bus is sent once", "statement": "On a bus with several nodes whose modules have different numbers, the answer of all nodes together to one process request contains every process data identifier at most once, contains only identifiers of transmit objects of awake modules of the bus, and contains the identifier of each such object unless a conversion function of its node fails. The frame under that identifier carries the data of that object of that node: a receiver finds, under the identifier of each object, exactly one frame with what the conversion of the object made of the application's data.", "quantifier": "all numbers of nodes, all configurations and histories of each of them, all states of silence, all process requests", "why_tests_cant": "Two nodes sending the same identifier destroy each other's frames on the bus; a test can only try particular buses, and the absence of collisions depends on the histories of all nodes.", "anchors": ["source/core/io_can_main.c:can_main_sync_send_process_data", "source/core/io_can_main.c:can_main_sync_process_tx_data_cnfg", "source/config/io_can_config.c:can_config_add_module"]}
{"id": "C107", "title": "Nodes do not take each other's frames for messages of the master", "statement": "Whatever a node sends - process data, answers, error messages - passes no receive filter of any node on the bus, neither of another one nor its own, whatever the histories of the two nodes: frames of nodes are never taken for process data, control messages or system messages from the master.", "quantifier": "all pairs of nodes with their configurations and histories, all operations of the sender, all frames it sends, all message objects of the receiver", "why_tests_cant": "A frame of one node that another one accepts corrupts data silently; whether it can happen depends on all filters that all histories can configure and all identifiers that can be sent, which no set of test buses covers.", "anchors": ["source/core/io_can_main.c:can_main_define_msg_obj", "source/config/io_can_config.c:can_config_set_module", "source/config/io_can_config.c:li_can_slv_config_change_module_nr_and_identifiers", "source/sys/io_can_sys.c:can_sys_msg_rx"]}
{"id": "C108", "title": "Process data of the master reaches the module it is meant for and no other one on the bus", "statement": "On a bus of nodes whose modules have different numbers, none of which was changed after the module had been added, a frame of process data for object k of module n (n from 1 to 128) is taken by at most one message object in all nodes: the one of object k of the module with number n. A module that was added completely has this object and accepts the frame when its length is right; a node without the module is not changed at all by the frame. This holds also when additions of other modules failed half-way.", "quantifier": "all buses (lists of nodes with their configurations and histories of additions and all other operations except changes of numbers and types), all module numbers, object numbers, lengths and data of the frame, all message objects", "why_tests_cant": "A frame taken by a second module corrupts its data silently; the absence of a second filter for the same identifier must hold for every order of additions, also failed ones, on every node of every bus.", "anchors": ["source/core/io_can_main.c:can_main_define_msg_obj", "source/core/io_can_main.c:can_main_msg_obj_rx_data_cnfg", "source/config/io_can_config.c:can_config_set_module", "source/config/io_can_config.c:can_config_add_module"]}
{"id": "C109", "title": "What the master sends in a cycle decides which process images are valid", "statement": "Take a node whose modules were all added completely and kept their numbers and types. Between two process requests that are not the first one, the master sends any frames of process data, for this node and for others, in any order. At the second request the image of a module is reported valid if and only if every object the module listens to was sent exactly once with its length (in a build without the check of length and identifier: exactly once, with any length). And the memory of an object of a valid module that no other object shares then holds the conversion of the data the master sent for this object (when the node has the second message object for system messages, as configured by default).", "quantifier": "all configurations, all histories without changes of numbers and types in which all additions succeeded, all sequences of up to 65536 frames of process data for the numbers 1 to 128, all lengths, data and times, all message objects that let the frame pass", "why_tests_cant": "The claim ties the frames on the bus to the callback of the application through filters, message objects, counters and verdicts; it has to hold for every interleaving of the frames for all modules on the bus.", "anchors": ["source/sync/io_can_sync.c:can_sync_rx_data_main", "source/sync/io_can_sync.c:li_can_slv_sync_check_process_image", "source/sync/io_can_sync_handler.c:can_sync_handler_rx", "source/core/io_can_main.c:can_main_msg_obj_rx_data_cnfg"]}
{"id": "C110", "title": "A control message reaches the module it is meant for, once on the bus", "statement": "On a bus of nodes whose modules have different numbers, none of which was changed after the module had been added, a control message for module n (n from 2 to 128) is taken by at most one message object in all nodes, and only by a node that has a module with number n. A module that was added completely gets the message exactly once under its number when it arrives; a node without the module is not changed by the message. This holds also when additions of other modules failed half-way.", "quantifier": "all buses (lists of nodes with their configurations and histories of additions and all other operations except changes of numbers and types), all module numbers from 2 to 128, all lengths and data of the message, all message objects", "why_tests_cant": "A second object that listens to the number delivers a control message twice or to the wrong module (as happens after number changes, C84); its absence must hold for every order of additions, also failed ones, on every node of the bus.", "anchors": ["source/config/io_can_config.c:can_config_get_async_ctrl_rx_obj", "source/config/io_can_config.c:can_config_set_module", "source/config/io_can_config.c:can_config_add_module", "source/async/io_can_async_handler.c:can_async_handler_rx"]}
{"id": "C111", "title": "Values of the master reach the application in a cycle and come back in the next one", "statement": "In a process cycle as in C109 (check switched on, second message object for system messages configured), let the master send values - numbers of any width, bytes in pairs, 16-bit or 32-bit numbers - for an object whose receive conversion is the library function for this kind. Whenever the image of the module is then declared valid, the application finds these values in the memory of the object, in the byte order of its platform, and the memory behind them is unchanged. If the application copies what it found into a transmit object with the library conversion for the same kind, the next process request makes the node send a frame with the identifier of that object and the bytes of the master's values.", "quantifier": "all kinds of objects and all values that fit into a frame, both byte orders, all configurations and histories as in C109, all other frames of the cycle, all contents of the memory before", "why_tests_cant": "The path of a value goes through filters, dispatch, conversion, the verdict, the application's memory and the transmission; that none of these loses or alters a value must hold for all values and all traffic.", "anchors": ["source/sync/io_can_sync.c:can_sync_rx_data_main", "source/sync/io_can_sync.c:can_sync_tx_data_main", "source/sync/io_can_sync.c:li_can_slv_sync_check_process_image", "source/core/io_can_main.c:can_main_sync_send_process_data"]}
{"id": "C112", "title": "Initialising a node with two controllers again starts a fresh, equal cycle for all modules", "statement": "In a build with a monitor controller the application initialises the stack again, at any moment, and adds the same modules as before. This changes neither the frames that are sent nor the times of verdicts. All modules are treated alike, no verdict given later is about frames or requests from before the initialisation, and after a complete cycle nothing that can be observed depends on it.", "quantifier": "all tables of modules, all states in which the initialisation happens, all requests and frames on both controllers and all accesses of the application after it", "why_tests_cant": "What the buffers of the comparison hold, and what has been counted, at the moment of the initialisation depends on the interrupts before it; that this does not show later must hold for all moments and all later interrupts.", "anchors": ["source/sync/io_can_sync.c:can_sync_init", "source/sync/io_can_sync.c:can_sync_tx_data_mon", "source/sync/io_can_sync.c:can_sync_rx_data_mon", "source/sync/io_can_sync.c:li_can_slv_sync_check_process_image"]}
{"id": "C113", "title": "Clearing the receive data of a module clears exactly that and changes no verdict", "statement": "In a build with a monitor controller, the call that clears the receive data of the module at a position sets every receive object of the module, in the application's memory and for the monitor, to what the conversion functions make of eight zero bytes, and changes nothing else. It fails only for positions outside of the table, without effect, or when a conversion function reports an error. It does not change the verdict on any process image, nor any frame that is sent, at whatever moment of a cycle it is called.", "quantifier": "all tables of modules and conversion functions, all positions, all contents of the memory, all histories of requests and frames before and after the call", "why_tests_cant": "The call may come at any point between the frames of the two controllers; what a later comparison of their bytes finds depends on all frames before and after it.", "anchors": ["source/sync/io_can_sync.c:can_sync_clr_rx_data_main_mon", "source/sync/io_can_sync.c:li_can_slv_sync_check_process_image_module"]}
{"id": "C114", "title": "The IO configuration of a module is the one set last for it", "statement": "In a build with IO configurations, after any history of initialisations, additions of modules and settings of the configuration, every module has the checksum and date set last for it, or the values it was added with, and the function it was added with. Setting a configuration, or calling the function, for a module that does not exist reports an error and changes nothing; a setting changes the configuration of one module only.", "quantifier": "all sizes of the table, all histories of calls, all types, checksums, dates and functions", "why_tests_cant": "The module is looked up by its type in a table that other calls fill and empty; that the right entry is found must hold for every history of these calls.", "anchors": ["source/config/io_can_config.c:can_config_set_ioconfig", "source/config/io_can_config.c:can_config_call_ioconfig_set", "source/config/io_can_config.c:can_config_get_ioconfig", "source/config/io_can_config.c:can_config_module_type_valid"]}
{"id": "C115", "title": "Single transmit objects can be switched off and on", "statement": "After any sequence of calls that switch the cyclic transmission of single objects on or off, the next process request ends and sends exactly the objects whose last switch was on and the objects without a switch whose module is awake, each once and in table order; the calls change nothing else. A switch stays in force until the next switch of the same object, and a silent module sends nothing.", "quantifier": "all histories, all sequences of switches, all process requests", "why_tests_cant": "The set of objects is one word whose bits belong to positions that other calls fill, and the loop over it has a bound kept elsewhere; that it ends and skips nothing must hold for every set and every table.", "anchors": ["source/core/io_can_main.c:can_main_synchron_tx_data_on", "source/core/io_can_main.c:can_main_synchron_tx_data_off", "source/core/io_can_main.c:can_main_sync_send_process_data"]}
{"id": "C116", "title": "The bit rate the application reads is the one on the bus", "statement": "At every moment the bit rate the application reads and the one stored for the boot loader are the rate the CAN controller was last programmed with, whoever set it: the application or a system message. Setting one of the known rates before the start or while the node is stopped takes effect in all three places; any other call changes none of them and is answered with an error.", "quantifier": "all histories of frames, process requests and calls", "why_tests_cant": "The rate is kept in three places that are written at different points of one routine with error exits between them, and that routine is reached from the application and from received messages in every mode.", "anchors": ["source/api/li_can_slv_api.c:lcsa_get_baudrate", "source/config/io_can_config.c:can_config_set_baudrate", "source/config/io_can_config.c:can_config_get_baudrate", "source/arch/canpie_adapter/io_can_main_hw.c:can_main_hw_set_baudrate"]}
