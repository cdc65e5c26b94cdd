{
 "claims": [
  {
   "property": "C01",
   "status": "partial",
   "theorems": [
    "C01_image_verdict_partial",
    "C01_image_verdict_short_partial",
    "C01_verdict_callback_partial",
    "C01_first_cycle_refuted",
    "C01_woken_module_refuted"
   ],
   "note": "proved for every history after the first request, for modules not woken up inside the cycle (exact up to the 16-bit reception counter); refuted for the first cycle and for a module woken up inside the cycle"
  },
  {
   "property": "C02",
   "status": "proved",
   "theorems": [
    "C02_long_request_suppressed",
    "C02_next_cycle_fresh"
   ],
   "note": "every history; second theorem: the following cycle is judged by its own receptions only"
  },
  {
   "property": "C03",
   "status": "proved",
   "theorems": [
    "C03_valid_times",
    "C03_hook_iff_all_valid",
    "C03_only_at_requests"
   ],
   "note": "every history"
  },
  {
   "property": "C04",
   "status": "proved",
   "theorems": [
    "C04_period_bounded",
    "C04_period_is_distance",
    "C04_cycle_time_bounded",
    "C04_cycle_time_set"
   ],
   "note": "every history; distances are modulo 2^32 ticks"
  },
  {
   "property": "C05",
   "status": "proved",
   "theorems": [
    "C05_every_enabled_object_once",
    "C05_terminates"
   ],
   "note": "every history without number or type changes, any conversion functions and hardware outcomes; states other than silent and awake given to the API are excluded"
  },
  {
   "property": "C06",
   "status": "partial",
   "theorems": [
    "C06_terminates_refuted",
    "C06_plain_history_partial",
    "C06_calm_history_partial",
    "C06_type_change_refuted"
   ],
   "note": "false: after a number change of a module that is not the last (C06_terminates_refuted), or a type change while a later module is silent (C06_type_change_refuted), the send loop never ends; proved for all histories in which only the last awake transmitting module is renumbered, to a free number, and types are changed while all modules are awake (C06_calm_history_partial)"
  },
  {
   "property": "C07",
   "status": "partial",
   "theorems": [
    "C07_silent_module_sends_nothing_partial",
    "C07_after_number_changes_refuted",
    "C07_calm_history_partial"
   ],
   "note": "proved for every history in which only the last awake transmitting module is renumbered, to a free number, and types are changed while all modules are awake; refuted with other number changes (C07_after_number_changes_refuted)"
  },
  {
   "property": "C08",
   "status": "proved",
   "theorems": [
    "C08_switch",
    "C08_no_delivery_while_silent",
    "C08_round_trip"
   ],
   "note": "one switch: every history; round trip and no delivery: every history without number or type changes"
  },
  {
   "property": "C09",
   "status": "proved",
   "theorems": [
    "C09_wrong_frame_ignored"
   ],
   "note": "every reachable state; the error code is the return value of the receive routine, the interrupt handler drops it"
  },
  {
   "property": "C10",
   "status": "proved",
   "theorems": [
    "C10_accepted_frame_effect",
    "C10_accepted_identifier"
   ],
   "note": "every reachable state, any conversion function"
  },
  {
   "property": "C11",
   "status": "proved",
   "theorems": [
    "C11_untorn",
    "C11_ends"
   ],
   "note": "every interleaving of the four word copies with byte writes of the application, any transmit object of at least eight bytes"
  },
  {
   "property": "C12",
   "status": "proved",
   "theorems": [
    "C12_at_most_7FF",
    "C12_collision_free",
    "C12_decoded"
   ],
   "note": "all numbers 1..128, objects 0..3 and classes"
  },
  {
   "property": "C13",
   "status": "proved",
   "theorems": [
    "C13_wrong_dlc_only_reported"
   ],
   "note": "every reachable state, DLC, identifier and payload"
  },
  {
   "property": "C14",
   "status": "proved",
   "theorems": [
    "C14_unknown_number_ignored",
    "C14_unknown_command_only_reported",
    "C14_unconfigured_number_refuted"
   ],
   "note": "every reachable state; finding: the default numbers of unused table entries count as known (C14_unconfigured_number_refuted)"
  },
  {
   "property": "C15",
   "status": "partial",
   "theorems": [
    "C15_status_request_partial",
    "C15_listen_only_refuted",
    "C15_duplicate_refuted"
   ],
   "note": "proved for reachable states with distinct module numbers; the clause that nothing is sent in listen-only mode is false for pending errors (C15_listen_only_refuted); with equal module numbers an awake module may not answer (C15_duplicate_refuted)"
  },
  {
   "property": "C16",
   "status": "proved",
   "theorems": [
    "C16_version_request",
    "C16_version_bytes_decode"
   ],
   "note": "reachable states with distinct module numbers"
  },
  {
   "property": "C17",
   "status": "proved",
   "theorems": [
    "C17_identifiers_follow",
    "C17_number_change_authorised"
   ],
   "note": "every reachable state and frame; the identifiers follow for modules that have all their message objects, unless an error is reported"
  },
  {
   "property": "C18",
   "status": "partial",
   "theorems": [
    "C18_announced_serial_accepted_partial",
    "C18_wrong_serial_ignored_partial",
    "C18_large_serial_refuted"
   ],
   "note": "proved below 2^24; refuted for every serial number of 2^24 or more"
  },
  {
   "property": "C19",
   "status": "proved",
   "theorems": [
    "C19_direct_refused",
    "C19_broadcast"
   ],
   "note": "every reachable state, rate and hardware outcome"
  },
  {
   "property": "C20",
   "status": "proved",
   "theorems": [
    "C20_needs_number_serial_and_type",
    "C20_only_that_module",
    "C20_broadcast_refused",
    "C20_nothing_else_changes_it"
   ],
   "note": "every reachable state and operation"
  },
  {
   "property": "C21",
   "status": "proved",
   "theorems": [
    "C21_first_process_request",
    "C21_first_status_request",
    "C21_at_most_once"
   ],
   "note": "every history"
  },
  {
   "property": "C22",
   "status": "proved",
   "theorems": [
    "C22_time_delivered"
   ],
   "note": "every reachable state and frame"
  },
  {
   "property": "C23",
   "status": "proved",
   "theorems": [
    "C23_errors_fifo",
    "C23_nothing_lost"
   ],
   "note": "ring buffer refines an unbounded FIFO for every call sequence that never fills it, any queue size"
  },
  {
   "property": "C24",
   "status": "partial",
   "theorems": [
    "C24_overflow_refuted",
    "C24_overflow_partial"
   ],
   "note": "false of the code (write outside the queue storage, C24_overflow_refuted); C24_overflow_partial gives the exact behaviour and the exact condition under which it is safe"
  },
  {
   "property": "C25",
   "status": "partial",
   "theorems": [
    "C25_peek_refuted",
    "C25_peek_partial"
   ],
   "note": "false after a read (C25_peek_refuted); proved while nothing has been read"
  },
  {
   "property": "C26",
   "status": "proved",
   "theorems": [
    "C26_one_error_per_request",
    "C26_error_bytes_decode"
   ],
   "note": "every reachable state; numbers in the table are non-zero bytes"
  },
  {
   "property": "C27",
   "status": "proved",
   "theorems": [
    "C27_codes_lossless",
    "C27_codes_injective",
    "C27_read_back"
   ],
   "note": "all 16-bit codes"
  },
  {
   "property": "C28",
   "status": "proved",
   "theorems": [
    "C28_positions",
    "C28_refused_when_full"
   ],
   "note": "every history without number and type changes (any requested numbers, frames and other calls in between)"
  },
  {
   "property": "C29",
   "status": "proved",
   "theorems": [
    "C29_pairwise_different",
    "C29_number_given"
   ],
   "note": "every history without number and type changes; default numbers are 125 + position"
  },
  {
   "property": "C30",
   "status": "partial",
   "theorems": [
    "C30_unique_refuted",
    "C30_fresh_numbers_partial"
   ],
   "note": "false of the code without a validator that refuses numbers in use (C30_unique_refuted); proved for histories in which every requested number is valid and free"
  },
  {
   "property": "C31",
   "status": "partial",
   "theorems": [
    "C31_unknown_module_refuted",
    "C31_known_partial"
   ],
   "note": "false of the code: proved to be undefined behaviour (write behind the table) in every state and for every unknown type and number; after every sound history these are the only undefined arguments, and for a known pair the call returns, changes the number of that entry only and leaves types, errors, silent states and the number of modules alone (C31_known_partial)"
  },
  {
   "property": "C32",
   "status": "proved",
   "theorems": [
    "C32_after_addition",
    "C32_after_number_change",
    "C32_kept"
   ],
   "note": "after every addition and number change that reports no error, for numbers 1..128; numbers above 128 (default numbers from position 4) have no valid identifiers"
  },
  {
   "property": "C33",
   "status": "proved",
   "theorems": [
    "C33_addition",
    "C33_not_shared",
    "C33_kept",
    "C33_none_left"
   ],
   "note": "every history; completeness of a new module assumes that no earlier addition failed"
  },
  {
   "property": "C34",
   "status": "proved",
   "theorems": [
    "C34_owner",
    "C34_dispatched",
    "C34_unregistered"
   ],
   "note": "every history; an unregistered object is ignored without an error message"
  },
  {
   "property": "C35",
   "status": "proved",
   "theorems": [
    "C35_bounded_fifo",
    "C35_nothing_lost"
   ],
   "note": "every interleaving of whole calls, every queue length; the consumer is port code and is taken to read the slot at the read index, advance it and decrement the fill count"
  },
  {
   "property": "C36",
   "status": "proved",
   "theorems": [
    "C36_bounded_fifo",
    "C36_exactly_once"
   ],
   "note": "every interleaving of whole calls of slave type, every queue length and any controller outcomes"
  },
  {
   "property": "C37",
   "status": "partial",
   "theorems": [
    "C37_preemption_refuted",
    "C37_count_refuted",
    "C37_preemption_partial",
    "C37_uninterrupted_partial"
   ],
   "note": "false of the code (C37_preemption_refuted, C37_count_refuted); proved for all schedules in which no interrupt falls between the read and the write of the increment"
  },
  {
   "property": "C38",
   "status": "proved",
   "theorems": [
    "C38_buffer_fifo"
   ],
   "note": "refinement to a bounded list for every call sequence and size"
  },
  {
   "property": "C39",
   "status": "partial",
   "theorems": [
    "C39_rollback_partial",
    "C39_rollback_refuted"
   ],
   "note": "proved without additions between checkpoint and rollback; refuted with an addition"
  },
  {
   "property": "C40",
   "status": "proved",
   "theorems": [
    "C40_hex_value",
    "C40_hex_spelling",
    "C40_hex_stream"
   ],
   "note": "conversion and stream readers; the code documents and reads 2, 2 and 4 characters for 8, 16 and 32-bit values"
  },
  {
   "property": "C41",
   "status": "proved",
   "theorems": [
    "C41_short_version",
    "C41_upload_info",
    "C41_long_version",
    "C41_start_request"
   ],
   "note": "every name, every state with the handler registered, any behaviour of the handlers"
  },
  {
   "property": "C42",
   "status": "proved",
   "theorems": [
    "C42_download",
    "C42_wrong_count",
    "C42_too_long",
    "C42_byte_count_refuted"
   ],
   "note": "every history that leads to an idle stack, any number of blocks that fit, any handlers that use the buffer without restoring a read position; finding: the byte count is not checked (C42_byte_count_refuted)"
  },
  {
   "property": "C43",
   "status": "partial",
   "theorems": [
    "C43_version_requests_partial",
    "C43_rejected_version_refuted",
    "C43_info_request_refuted",
    "C43_second_start_refuted",
    "C43_upload_request_refuted",
    "C43_unrelated_messages_partial",
    "C43_half_request_partial"
   ],
   "note": "false of the code (C43_second_start_refuted, C43_upload_request_refuted, C43_rejected_version_refuted, C43_info_request_refuted); proved for unrelated messages and successful version requests mixed into the download"
  },
  {
   "property": "C44",
   "status": "partial",
   "theorems": [
    "C44_first_block_partial",
    "C44_reassembly_partial",
    "C44_prefix_partial",
    "C44_second_block_refuted",
    "C44_wait_refuted"
   ],
   "note": "proved for the first block of an upload; false for the following ones (C44_second_block_refuted); the wait can last for ever (C44_wait_refuted)"
  },
  {
   "property": "C45",
   "status": "proved",
   "theorems": [
    "C45_first_handler",
    "C45_never_replaced",
    "C45_errors"
   ],
   "note": "every history of registrations, messages and calls"
  },
  {
   "property": "C46",
   "status": "partial",
   "theorems": [
    "C46_completed_partial",
    "C46_power_loss_partial",
    "C46_mode_update_partial",
    "C46_component_refuted",
    "C46_baud_rate_refuted"
   ],
   "note": "proved for completed updates and for power loss at every byte of the mode update; false for a component update (C46_component_refuted: for every 16-bit checksum there is a torn component that is accepted) and for the baud rate (C46_baud_rate_refuted)"
  },
  {
   "property": "C47",
   "status": "proved",
   "theorems": [
    "C47_exactly_once",
    "C47_not_pending",
    "C47_operational",
    "C47_power_loss_refuted"
   ],
   "note": "every stored information and history of starts; the clause assumes that power does not fail between the acknowledge and the mode update (C47_power_loss_refuted)"
  },
  {
   "property": "C48",
   "status": "partial",
   "theorems": [
    "C48_acknowledge_partial",
    "C48_granted_partial",
    "C48_busy_partial",
    "C48_owner_partial",
    "C48_port_refuses_partial",
    "C48_close_partial",
    "C48_flow_control_partial",
    "C48_own_messages_partial",
    "C48_not_open_partial",
    "C48_denied_refuted",
    "C48_foreign_close_refuted"
   ],
   "note": "proved: acknowledge only when free, denial without effect when in use, owner stable until closed, port refusal leaves it free, flow control; false for connection types other than 0 (C48_denied_refuted); finding: any peer can close it (C48_foreign_close_refuted)"
  },
  {
   "property": "C49",
   "status": "proved",
   "theorems": [
    "C49_order",
    "C49_delivered"
   ],
   "note": "every history of messages, bytes, flushes and controller outcomes from power-on"
  },
  {
   "property": "C50",
   "status": "partial",
   "theorems": [
    "C50_refuted",
    "C50_clean_partial"
   ],
   "note": "false of the code (C50_refuted); proved for sessions that start after everything was sent"
  },
  {
   "property": "C51",
   "status": "partial",
   "theorems": [
    "C51_begins_partial",
    "C51_stopped_refuted",
    "C51_listens_only_partial",
    "C51_never_operational_partial",
    "C51_rates_partial",
    "C51_rate_set_partial",
    "C51_frames_ignored_partial",
    "C51_end_partial",
    "C51_end_refuted"
   ],
   "note": "proved for every history: rates, ignored frames, never operational within a search for every answer of the driver; listen-only, rate and end of the search for a driver that accepts the changes (false otherwise: C51_end_refuted)"
  },
  {
   "property": "C52",
   "status": "partial",
   "theorems": [
    "C52_rate_kept_partial",
    "C52_ends_partial",
    "C52_refuted",
    "C52_race_refuted",
    "C52_reported_refuted"
   ],
   "note": "proved for frames received between two calls of the process function if a rate was tried in this search or it is the first search; false for a second start (C52_refuted) and for a frame that arrives during the call (C52_race_refuted); the reported rate can be 0 (C52_reported_refuted)"
  },
  {
   "property": "C53",
   "status": "proved",
   "theorems": [
    "C53_first_failure",
    "C53_success",
    "C53_after_failure_refuted"
   ],
   "note": "every pattern of outcomes; finding: two unconditional actions run after a failure (C53_after_failure_refuted)"
  },
  {
   "property": "C54",
   "status": "partial",
   "theorems": [
    "C54_bits_partial",
    "C54_nibbles_partial",
    "C54_uint16_partial",
    "C54_uint32_partial",
    "C54_sint20_partial",
    "C54_uint12_rx_partial",
    "C54_uint12_tx_partial",
    "C54_uint12_stack_refuted"
   ],
   "note": "proved for every value, byte order and buffer for the 8/16/32/20-bit and nibble conversions and for the 12-bit ones given the whole object; false for the 12-bit transmit conversions as the stack calls them (C54_uint12_stack_refuted: only eight bytes of the object are passed)"
  },
  {
   "property": "C55",
   "status": "partial",
   "theorems": [
    "C55_by_type_partial",
    "C55_by_number_partial",
    "C55_by_type_and_number_partial",
    "C55_lookups_agree_partial",
    "C55_getters_partial",
    "C55_getters_range_partial",
    "C55_only_configured_refuted"
   ],
   "note": "proved for every table; finding: unused slots are found too (C55_only_configured_refuted)"
  },
  {
   "property": "C56",
   "status": "partial",
   "theorems": [
    "C56_verdicts_partial",
    "C56_image_partial",
    "C56_sent_bytes_partial",
    "C56_refuted",
    "C56_foreign_refuted",
    "C56_application_refuted",
    "C56_stack_refuted"
   ],
   "note": "proved for every history of both controllers: verdicts come exactly with the request that ends a cycle with one request on each controller, and are valid iff the controllers agree; assumes fewer than 65536 events in a cycle, conversions that write all configured bytes, an application that leaves its receive objects alone; false for lost requests (C56_refuted: two cycles without verdict), foreign frames (C56_foreign_refuted), and without the assumptions (C56_application_refuted, C56_stack_refuted)"
  },
  {
   "property": "C57",
   "status": "proved",
   "theorems": [
    "C57_newest_error"
   ],
   "note": "every sequence of calls"
  },
  {
   "property": "C58",
   "status": "partial",
   "theorems": [
    "C58_start_result_partial",
    "C58_reconnect_refuted"
   ],
   "note": "proved for the build without reconnect; false with it (C58_reconnect_refuted)"
  },
  {
   "property": "C59",
   "status": "partial",
   "theorems": [
    "C59_hold_refuted",
    "C59_never_flushed_refuted",
    "C59_flush_partial"
   ],
   "note": "false of the code: the delay is compared with the absolute tick count (C59_hold_refuted, C59_never_flushed_refuted); proved: once the counter has passed the delay and 7 ticks more, a flush queues exactly the bytes held back (C59_flush_partial); delivery is C49_delivered"
  },
  {
   "property": "C60",
   "status": "partial",
   "theorems": [
    "C60_returns_partial",
    "C60_refuted"
   ],
   "note": "false of the code when the controller takes no message (C60_refuted); proved when it takes one during the call"
  },
  {
   "property": "C61",
   "status": "partial",
   "theorems": [
    "C61_settles_partial",
    "C61_refuted"
   ],
   "note": "proved for the build without CHECK_LEC; false with it (C61_refuted)"
  },
  {
   "property": "C62",
   "status": "partial",
   "theorems": [
    "C62_timeout_partial",
    "C62_refuted"
   ],
   "note": "proved if the clock does not pass its largest value within the no-traffic time, build without CHECK_LEC; false otherwise (C62_refuted)"
  },
  {
   "property": "C63",
   "status": "proved",
   "theorems": [
    "C63_short_version",
    "C63_long_version",
    "C63_upload_info",
    "C63_no_handler"
   ],
   "note": "every handler behaviour that ends; every history before the request"
  },
  {
   "property": "C64",
   "status": "proved",
   "theorems": [
    "C64_no_effect",
    "C64_unknown_code"
   ],
   "note": "every history"
  },
  {
   "property": "C65",
   "status": "proved",
   "theorems": [
    "C65_announced"
   ],
   "note": "buffer sizes 56..65535"
  },
  {
   "property": "C66",
   "status": "partial",
   "theorems": [
    "C66_call_partial",
    "C66_request_partial",
    "C66_wrap_refuted"
   ],
   "note": "proved for clocks that do not wrap during the call; false where the delay reaches beyond the end of the clock range (C66_wrap_refuted)"
  },
  {
   "property": "C67",
   "status": "proved",
   "theorems": [
    "C67_baud_rate",
    "C67_after_reset"
   ],
   "note": "every content of the persistent memory"
  },
  {
   "property": "C68",
   "status": "partial",
   "theorems": [
    "C68_calm_returns_partial",
    "C68_no_undefined_partial",
    "C68_returns_partial",
    "C68_bus_only_refuted",
    "C68_type_change_refuted"
   ],
   "note": "no undefined behaviour over all histories with valid arguments while the error queue has room (single-slot build: always); that every call returns is proved for calm histories (number changes of the last awake module to free numbers, type changes while all modules are awake; C68_calm_returns_partial); false from the bus alone with the error queue (C68_bus_only_refuted) and after a type change to fewer receive objects (C68_type_change_refuted)"
  },
  {
   "property": "C69",
   "status": "partial",
   "theorems": [
    "C69_authorised_partial",
    "C69_effect_partial",
    "C69_sends_partial",
    "C69_silent_receives_refuted",
    "C69_identifier_zero_refuted",
    "C69_not_received_refuted",
    "C69_deaf_refuted",
    "C69_not_supervised_refuted"
   ],
   "note": "authorisation and the effect on the tables are proved for every history; the complete next cycle is proved after histories whose number and type changes are made in the states described at C06; the rest is false of the code: silent modules (C69_silent_receives_refuted, C69_identifier_zero_refuted), additional receive objects (C69_not_received_refuted, C69_deaf_refuted), supervision (C69_not_supervised_refuted)"
  },
  {
   "property": "C70",
   "status": "partial",
   "theorems": [
    "C70_tables_partial",
    "C70_sends_refuted",
    "C70_silent_refuted",
    "C70_receive_refuted",
    "C70_full_refuted",
    "C70_hooks_refuted"
   ],
   "note": "the module table, the message objects and the callbacks are proved to be as after the first initialisation; false for the transmit register (C70_sends_refuted), silent states (C70_silent_refuted) and the table of message objects (C70_receive_refuted, C70_full_refuted) and for most hooks (C70_hooks_refuted)"
  },
  {
   "property": "C71",
   "status": "partial",
   "theorems": [
    "C71_possible_partial",
    "C71_takes_partial",
    "C71_bounded_refuted",
    "C71_half_refuted",
    "C71_deaf_refuted"
   ],
   "note": "a change succeeds while a message object is free and the hardware accepts it (C71_possible_partial); false in general with asynchronous messages: every change takes a message object for good (C71_takes_partial, C71_bounded_refuted), and the first one too many leaves the module with the new number and the node deaf to it (C71_half_refuted, C71_deaf_refuted)"
  },
  {
   "property": "C72",
   "status": "proved",
   "theorems": [
    "C72_added",
    "C72_number",
    "C72_others",
    "C72_renumbered",
    "C72_accept",
    "C72_dispatch",
    "C72_only",
    "C72_once"
   ],
   "note": "monitor build without MAIN_MON; the main controller's part of the functions appears as arbitrary error codes; type changes are not part of these histories"
  },
  {
   "property": "C73",
   "status": "partial",
   "theorems": [
    "C73_possible_partial",
    "C73_full_refuted",
    "C73_stolen_refuted",
    "C73_default_refuted"
   ],
   "note": "proved while the 16 transmit entries are not used up (C73_possible_partial); false beyond (C73_full_refuted), for number changes of incompletely added modules (C73_stolen_refuted) and for default numbers above 128 (C73_default_refuted)"
  },
  {
   "property": "C74",
   "status": "partial",
   "theorems": [
    "C74_same_partial",
    "C74_set_partial",
    "C74_driver_refuted",
    "C74_current_refuted",
    "C74_unset_refuted"
   ],
   "note": "proved for every history in which the driver refuses no rate; a refused rate is not noticed (C74_driver_refuted), the reported rate changes although the change is refused (C74_current_refuted), an unknown rate is a success (C74_unset_refuted)"
  },
  {
   "property": "C75",
   "status": "partial",
   "theorems": [
    "C75_modes_partial",
    "C75_start_partial",
    "C75_stopped_refuted",
    "C75_lost_refuted"
   ],
   "note": "proved for operational and listening nodes and drivers that refuse nothing; the monitor of a stopped node is active (C75_stopped_refuted) and the failure of the main controller is lost (C75_lost_refuted)"
  },
  {
   "property": "C76",
   "status": "partial",
   "theorems": [
    "C76_main_partial",
    "C76_step_partial",
    "C76_begin_partial",
    "C76_active_refuted",
    "C76_start_refuted"
   ],
   "note": "proved for the main controller and for the ends of the steps; the monitor is started with the old rate in every step (C76_active_refuted), and without any rate at the start (C76_start_refuted)"
  },
  {
   "property": "C77",
   "status": "partial",
   "theorems": [
    "C77_points_partial",
    "C77_inside_refuted",
    "C77_slot_partial",
    "C77_slot_reads_partial",
    "C77_slot_refuted"
   ],
   "note": "proved for interrupts before the count is read and after the entry is complete (single-slot build: before and after the stores), the function has no interrupt lock; false at every other access (C77_inside_refuted, C77_slot_refuted)"
  },
  {
   "property": "C78",
   "status": "partial",
   "theorems": [
    "C78_switch_partial",
    "C78_lost_refuted",
    "C78_contents_refuted",
    "C78_part_refuted",
    "C78_same_refuted"
   ],
   "note": "proved for interrupts that switch other modules and do not hit between reading and writing of the send register, and for the frames of the modules that are not being switched; false otherwise: the other module's switch is lost (C78_lost_refuted), frames without application data (C78_contents_refuted), part of the objects (C78_part_refuted), the same module switched by both (C78_same_refuted)"
  },
  {
   "property": "C79",
   "status": "partial",
   "theorems": [
    "C79_frames_of_a_cycle_partial",
    "C79_critical_sends_no_data_partial",
    "C79_critical_gets_no_data_partial",
    "C79_critical_counts_as_valid_partial",
    "C79_effect_partial",
    "C79_ended_by_the_master_refuted",
    "C79_active_while_silent_refuted",
    "C79_second_of_a_type_refuted"
   ],
   "note": "proved for every history without changes of numbers and types, with the modules that take part told from the history; the critical state is also ended by the master waking the module (C79_ended_by_the_master_refuted), a silent module declared active sends (C79_active_while_silent_refuted), and only the first module of a type can be declared critical (C79_second_of_a_type_refuted)"
  },
  {
   "property": "C80",
   "status": "proved",
   "theorems": [
    "C80_right_hook",
    "C80_request_hooks",
    "C80_registration",
    "C80_time_function"
   ],
   "note": "a module is a table entry; the functions given out by type belong to the first entry with that type, the interface offers no other"
  },
  {
   "property": "C81",
   "status": "partial",
   "theorems": [
    "C81_paired_partial",
    "C81_told_partial",
    "C81_refused_end_refuted",
    "C81_restart_refuted",
    "C81_unknown_rate_refuted"
   ],
   "note": "proved for histories in which the driver accepts the operational mode and lcsa_start is not called during a search; a refused mode leaves the search unended for the application (C81_refused_end_refuted), a restart announces twice (C81_restart_refuted), an unsupported start-up rate is told although another one is used (C81_unknown_rate_refuted)"
  },
  {
   "property": "C82",
   "status": "partial",
   "theorems": [
    "C82_measured_partial",
    "C82_get_partial",
    "C82_trigger_partial",
    "C82_get_refuted",
    "C82_limited_refuted",
    "C82_wrap_refuted",
    "C82_lost_refuted",
    "C82_two_refuted"
   ],
   "note": "proved for requests before the accesses of the getter and for requests before the check plus one between its calculation and its comparison; elsewhere false: a period above the maximum is read (C82_get_refuted), the maximum is stored (C82_wrap_refuted), a measured period is overwritten (C82_lost_refuted), the time since an earlier request is stored (C82_two_refuted)"
  },
  {
   "property": "C83",
   "status": "proved",
   "theorems": [
    "C83_cycle_time",
    "C83_cycle_message",
    "C83_reset_called",
    "C83_reset_message",
    "C83_reset_unauthorised"
   ],
   "note": "every reached state and every operation; a factory reset needs no serial number and is obeyed as a broadcast (C83_reset_unauthorised), unlike number, type and silent requests"
  },
  {
   "property": "C84",
   "status": "partial",
   "theorems": [
    "C84_one_service_partial",
    "C84_tunnel_partial",
    "C84_extended_partial",
    "C84_control_once_partial",
    "C84_control_delivered_partial",
    "C84_old_number_partial",
    "C84_twice_refuted",
    "C84_request_by_data_refuted"
   ],
   "note": "one service at most: every reached state; exactly once and dropped for the old number: histories in which every module number is between 1 and 128. A number above 128 told by the master makes later control messages arrive twice (C84_twice_refuted); a number told to a module whose addition failed takes the object of the process requests away (C84_request_by_data_refuted)"
  },
  {
   "property": "C85",
   "status": "partial",
   "theorems": [
    "C85_range_partial",
    "C85_seed_partial",
    "C85_differ_partial",
    "C85_same_refuted",
    "C85_coarse_refuted",
    "C85_all_used_partial",
    "C85_period_refuted"
   ],
   "note": "range, independence of the past, and different delays within any 65536 requests for serial numbers that differ in the low 16 bits. Nodes whose serial numbers agree in the low 16 bits wait equally long for ever (C85_same_refuted); only 13 of the 104 delays occur (C85_coarse_refuted, C85_all_used_partial); the delays repeat after 65536 requests (C85_period_refuted)"
  },
  {
   "property": "C86",
   "status": "proved",
   "theorems": [
    "C86_query",
    "C86_initially",
    "C86_step",
    "C86_activity"
   ],
   "note": "for every history; the state the handlers of a rejected request leave behind is the subject of C43"
  },
  {
   "property": "C87",
   "status": "partial",
   "theorems": [
    "C87_node_partial",
    "C87_conversions_partial",
    "C87_control_refuted"
   ],
   "note": "process data, process requests, system messages and the conversions that come with the library; the services get the bytes that were not received too. Control messages use them: an empty frame can end a running transfer, depending on old memory (C87_control_refuted)"
  },
  {
   "property": "C88",
   "status": "partial",
   "theorems": [
    "C88_pause_partial",
    "C88_clock_refuted",
    "C88_skipped_refuted",
    "C88_start_refuted",
    "C88_gap_refuted"
   ],
   "note": "exact as long as the clock has not run over and a reconnect has taken place. Refuted otherwise: after the clock has run over the node is deaf for as long as it ran before the end of its last reconnect (C88_clock_refuted); near the end of the clock there is no pause (C88_skipped_refuted); without a reconnect there is one at power-on (C88_start_refuted); frames before the time is noted are handled (C88_gap_refuted)"
  },
  {
   "property": "C89",
   "status": "partial",
   "theorems": [
    "C89_one_at_a_time_partial",
    "C89_skip_partial",
    "C89_free_partial",
    "C89_threads_refuted",
    "C89_irq_refuted"
   ],
   "note": "for calls that interrupt each other, to any depth. Refuted for threads, because the lock is tested with interrupts enabled (C89_threads_refuted); interrupts are enabled on return whether or not they were before (C89_irq_refuted)"
  },
  {
   "property": "C90",
   "status": "partial",
   "theorems": [
    "C90_order_partial",
    "C90_immediate_partial",
    "C90_defined_partial",
    "C90_backlog_refuted",
    "C90_stuck_refuted",
    "C90_tunnel_refuted"
   ],
   "note": "proved: order, and immediate transmission as long as the bus has always been available. False after an outage: the adapter registers no transmit handler, so each call sends at most one message; a backlog is never worked off (C90_backlog_refuted), a full queue refuses every later message for ever (C90_stuck_refuted) and the tunnel hangs (C90_tunnel_refuted)"
  },
  {
   "property": "C91",
   "status": "partial",
   "theorems": [
    "C91_cycles_partial",
    "C91_data_partial",
    "C91_after_partial",
    "C91_mixed_refuted",
    "C91_silent_refuted",
    "C91_lost_refuted"
   ],
   "note": "proved: each request during the change is answered completely and in order, no object returns to the old number, data given to the application after the number is written are addressed to the new number, and the final state is the new number. False: one answer may carry both numbers (C91_mixed_refuted), a silent module transmits during the change (C91_silent_refuted), data for the old number are received and refused while its frames still go out under the old number (C91_lost_refuted)"
  },
  {
   "property": "C92",
   "status": "partial",
   "theorems": [
    "C92_content_partial",
    "C92_first_cycle_refuted",
    "C92_zeros_refuted"
   ],
   "note": "proved for every cycle after the first in which no module is added, renumbered, retyped, silenced or woken, for memory used by one receive object only. False in the first cycle, where data from before the first request count (C92_first_cycle_refuted), and when a module is silenced and woken after its data arrived: the data are replaced by zeros and the image is declared valid (C92_zeros_refuted)"
  },
  {
   "property": "C93",
   "status": "partial",
   "theorems": [
    "C93_own_partial",
    "C93_apart_partial",
    "C93_disjoint_partial",
    "C93_spare_refuted"
   ],
   "note": "proved for calm histories (no number change of a module before the last sender, no type change with sleeping modules, no critical/active switching): identifiers of process data never coincide, and no identifier does if the tables have no spare entries. False in general for spare entries, which have default numbers and answer requests of the master (C93_spare_refuted). Asynchronous frames are outside of this model"
  },
  {
   "property": "C94",
   "status": "partial",
   "theorems": [
    "C94_clean_partial",
    "C94_in_order_partial",
    "C94_uninterrupted_partial",
    "C94_lost_refuted",
    "C94_wrap_refuted"
   ],
   "note": "proved for all schedules in which no interrupt falls between the read and the write of the number of bytes and no removal falls into the read of a byte, in particular for reading inside the block end handler. False otherwise: a data message is lost (C94_lost_refuted), or the number of bytes wraps to 65535 and every later byte is refused (C94_wrap_refuted)"
  },
  {
   "property": "C95",
   "status": "proved",
   "theorems": [
    "C95_per_operation",
    "C95_history",
    "C95_request"
   ],
   "note": "holds after every history, also after changes of numbers and types; the frames of asynchronous transfers, tunnels and monitors are not part of this model (see C37-C62)"
  },
  {
   "property": "C96",
   "status": "partial",
   "theorems": [
    "C96_modules_present_partial",
    "C96_unknown_added_partial",
    "C96_start_ends_partial",
    "C96_stays_partial",
    "C96_announces_partial",
    "C96_no_process_data_partial",
    "C96_failed_addition_refuted"
   ],
   "note": "proved for nodes to which nothing was added; refuted for a node whose only addition failed: the unknown module is counted but the node answers as the module whose addition failed"
  },
  {
   "property": "C97",
   "status": "partial",
   "theorems": [
    "C97_owner_partial",
    "C97_acknowledged_partial",
    "C97_closed_refuted",
    "C97_addition_refuted",
    "C97_driver_refuses_refuted",
    "C97_renumbered_refuted"
   ],
   "note": "proved while the tunnel is open; refuted: after closing the messages for the last owner still reach the user, after an addition those for all modules, after a number change the tunnel keeps the old number, and an opening is acknowledged although the controller refuses the filter"
  },
  {
   "property": "C98",
   "status": "proved",
   "theorems": [
    "C98_all_or_nothing",
    "C98_room",
    "C98_end_again",
    "C98_block_again_refuted"
   ],
   "note": "also a finding: after a refused block end the whole block cannot be sent again (C98_block_again_refuted)"
  },
  {
   "property": "C99",
   "status": "partial",
   "theorems": [
    "C99_restore_partial",
    "C99_same_bytes_partial",
    "C99_lost_partial",
    "C99_incomplete_partial",
    "C99_second_block_refuted"
   ],
   "note": "proved for a component of one block; a backup in two blocks is restored wrongly while both stacks report success (C99_second_block_refuted)"
  },
  {
   "property": "C100",
   "status": "partial",
   "theorems": [
    "C100_counted_partial",
    "C100_terminated_refuted",
    "C100_modules_refuted",
    "C100_after_end_refuted",
    "C100_after_error_refuted",
    "C100_never_started_refuted"
   ],
   "note": "only a wrong number of data messages is noticed (C100_counted_partial); blocks are accepted after a termination, after the end, after an error, without a start, and with the messages spread over several modules (five _refuted theorems)"
  },
  {
   "property": "C101",
   "status": "partial",
   "theorems": [
    "C101_one_partial",
    "C101_all_partial",
    "C101_possible_partial",
    "C101_large_refuted"
   ],
   "note": "proved for serial numbers below 2^24; that the messages are handled to the end is proved for nodes without a validator whose controllers accept the new filters (C101_possible_partial, cf. C71); a node with a larger serial number cannot be given a number by any sequence of frames (C101_large_refuted)"
  },
  {
   "property": "C102",
   "status": "proved",
   "theorems": [
    "C102_across",
    "C102_bytes"
   ],
   "note": "both directions with the conversions of C54 that the stack supports with one frame; the 12-bit conversions do not work with the stack (C54_uint12_stack_refuted)"
  },
  {
   "property": "C103",
   "status": "partial",
   "theorems": [
    "C103_after_stop_partial",
    "C103_two_attempts_partial",
    "C103_upload_partial",
    "C103_first_attempt_refuted"
   ],
   "note": "after a termination by the master every download is complete, and so is every upload if the call returns; without it a second attempt is always complete; refuted for the first attempt after a transfer that was left unfinished: there is no time-out, the request is refused"
  },
  {
   "property": "C104",
   "status": "partial",
   "theorems": [
    "C104_answers_partial",
    "C104_orders_partial",
    "C104_renumber_partial",
    "C104_large_refuted"
   ],
   "note": "answers name modules uniquely, orders and number changes made from them reach exactly that module, for any number of nodes and orders; refuted for serial numbers above 24 bits: such nodes answer but obey no order"
  },
  {
   "property": "C105",
   "status": "partial",
   "theorems": [
    "C105_announced_partial",
    "C105_memory_partial",
    "C105_kept_partial",
    "C105_slot_refuted",
    "C105_silent_refuted"
   ],
   "note": "for the build with the error queue, in all histories of plain operations; refuted for the build without the queue (a newer error replaces the pending one) and for errors of silent modules (taken out, never sent)"
  },
  {
   "property": "C106",
   "status": "proved",
   "theorems": [
    "C106_no_collision",
    "C106_only",
    "C106_all",
    "C106_data",
    "C106_read"
   ],
   "note": "for any number of nodes, each after a history of plain operations"
  },
  {
   "property": "C107",
   "status": "partial",
   "theorems": [
    "C107_low_partial",
    "C107_quiet_partial",
    "C107_four_partial",
    "C107_answer_refuted",
    "C107_data_refuted"
   ],
   "note": "proved for frames sent under numbers up to 128 and receivers whose modules were never given a number above 128, and without any condition on numbers (calm histories of both nodes) for tables with room for at most four modules; refuted for the default numbers 129 to 132 that modules added at the fifth and later positions get when their number is invalid or taken"
  },
  {
   "property": "C108",
   "status": "proved",
   "theorems": [
    "C108_addressee",
    "C108_one_place",
    "C108_delivered",
    "C108_others"
   ],
   "note": "for all histories without changes of numbers and types, as the claim says; the acceptance filters are those the CAN controller is given"
  },
  {
   "property": "C109",
   "status": "proved",
   "theorems": [
    "C109_valid",
    "C109_data"
   ],
   "note": "for histories without changes of numbers and types and complete additions, as the claim says; the first request of all is excluded because of C01_first_cycle_refuted; more than 65536 frames in a cycle can wrap the counters and are excluded"
  },
  {
   "property": "C110",
   "status": "proved",
   "theorems": [
    "C110_addressee",
    "C110_one_place",
    "C110_delivered",
    "C110_others",
    "C110_one_refuted"
   ],
   "note": "for all histories without changes of numbers and types, as the claim says (C84_twice_refuted: after number changes it is false); exact delivery for nodes whose modules all have numbers up to 128; number 1 is excluded because of C110_one_refuted; the one identifier of the data class the tunnel puts into the shared data object during a transfer (io_can_async.c:469, 476) is not part of the node model and differs from every control identifier"
  },
  {
   "property": "C111",
   "status": "proved",
   "theorems": [
    "C111_arrives",
    "C111_returns"
   ],
   "note": "composition of C109, C102 and C05 for the conversion functions that come with the library"
  },
  {
   "property": "C112",
   "status": "partial",
   "theorems": [
    "C112_other_modules_partial",
    "C112_forgotten_partial",
    "C112_first_refuted",
    "C112_counts_refuted"
   ],
   "note": "other modules unaffected and everything forgotten after a complete cycle; only the first module is cleared (C112_first_refuted) and counters survive (C112_counts_refuted)"
  },
  {
   "property": "C113",
   "status": "partial",
   "theorems": [
    "C113_cleared_partial",
    "C113_error_partial",
    "C113_fails_partial",
    "C113_between_partial",
    "C113_hides_refuted"
   ],
   "note": "effect and errors of the call; no later observation changes when no data frame of the module was received in the cycle; otherwise a disagreement of the controllers is hidden (C113_hides_refuted)"
  },
  {
   "property": "C114",
   "status": "partial",
   "theorems": [
    "C114_configuration_partial",
    "C114_one_place_partial",
    "C114_same_type_refuted",
    "C114_empty_refuted"
   ],
   "note": "for the first module of each type that is not empty, all histories; of two modules with the same type the second cannot be configured (C114_same_type_refuted), a free entry takes a configuration (C114_empty_refuted)"
  },
  {
   "property": "C115",
   "status": "partial",
   "theorems": [
    "C115_calm_history_partial",
    "C115_sent_partial",
    "C115_stays_partial",
    "C115_nothing_else_partial",
    "C115_not_configured_refuted",
    "C115_silent_refuted",
    "C115_lasting_refuted"
   ],
   "note": "for switches of configured objects after all histories whose number and type changes are made in the states described at C06, and every later process request as long as no module is added, renamed, silenced or woken; switching on an object that is not configured sends a frame with identifier 0 or makes the next request hang (C115_not_configured_refuted), an object of a silent module is sent with foreign data (C115_silent_refuted), a switch is undone by a silent phase (C115_lasting_refuted)"
  },
  {
   "property": "C116",
   "status": "partial",
   "theorems": [
    "C116_loader_partial",
    "C116_read_partial",
    "C116_set_partial",
    "C116_running_refuted",
    "C116_unknown_partial",
    "C116_refused_partial",
    "C116_unknown_answer_refuted"
   ],
   "note": "the boot loader rate in all histories; the rate the application reads in histories in which it sets a rate only before the start or while stopped; a rate set while the node is running is refused with an error and is nevertheless read back from then on (C116_running_refuted); an unknown rate changes nothing but is answered with no error (C116_unknown_answer_refuted)"
  }
 ]
}