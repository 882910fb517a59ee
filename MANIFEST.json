{
 "claims": [
  {
   "property": "C01",
   "status": "proved",
   "theorems": [
    "C01_regions_disjoint",
    "C01_server",
    "C01_no_controller",
    "C01_wrapping_ranges_refuted"
   ],
   "note": "the refuted theorem shows the range condition is needed"
  },
  {
   "property": "C02",
   "status": "proved",
   "theorems": [
    "C02_limits",
    "C02_failed_map_unchanged",
    "C02_server",
    "C02_map_exact",
    "C02_map_request",
    "C02_map_accepted",
    "C02_malformed_map"
   ],
   "note": ""
  },
  {
   "property": "C03",
   "status": "proved",
   "theorems": [
    "C03_remap"
   ],
   "note": ""
  },
  {
   "property": "C04",
   "status": "proved",
   "theorems": [
    "C04_unmap_exact",
    "C04_map_unmap_restores",
    "C04_unmap_request",
    "C04_unmap_all_request",
    "C04_malformed_unmap"
   ],
   "note": ""
  },
  {
   "property": "C05",
   "status": "proved",
   "theorems": [
    "C05_device_view",
    "C05_server"
   ],
   "note": ""
  },
  {
   "property": "C06",
   "status": "proved",
   "theorems": [
    "C06_sgl_tiles",
    "C06_server",
    "C06_wrapping_range_refuted"
   ],
   "note": "ranges ending below 2^64; for others the claim is refuted"
  },
  {
   "property": "C07",
   "status": "proved",
   "theorems": [
    "C07_sgl_answers"
   ],
   "note": ""
  },
  {
   "property": "C08",
   "status": "proved",
   "theorems": [
    "C08_write_needs_permission",
    "C08_read_only_entry_never_dirties",
    "C08_write_refused"
   ],
   "note": ""
  },
  {
   "property": "C09",
   "status": "proved",
   "theorems": [
    "C09_hint_independent"
   ],
   "note": ""
  },
  {
   "property": "C10",
   "status": "proved",
   "theorems": [
    "C10_sgl_get_inside",
    "C10_mappable"
   ],
   "note": ""
  },
  {
   "property": "C11",
   "status": "partial",
   "theorems": [
    "C11_mapping_holds_region_partial",
    "C11_exact",
    "C11_unaligned_offset_refuted"
   ],
   "note": "false for unaligned file offsets; proved for aligned ones; C11_exact says for every offset when the region fits its mapping and how many bytes lie past it"
  },
  {
   "property": "C12",
   "status": "proved",
   "theorems": [
    "C12_mark_exact",
    "C12_region_without_file_refuted"
   ],
   "note": "entries of regions that have a file; for a region without a file the program stops on an assertion (refuted theorem)"
  },
  {
   "property": "C13",
   "status": "proved",
   "theorems": [
    "C13_report_returns_and_clears",
    "C13_report_since_last",
    "C13_report_request",
    "C13_unmap_with_bitmap"
   ],
   "note": ""
  },
  {
   "property": "C14",
   "status": "proved",
   "theorems": [
    "C14_nothing_lost",
    "C14_next_report_has_it"
   ],
   "note": "sequentially consistent interleavings of the atomic byte operations"
  },
  {
   "property": "C15",
   "status": "partial",
   "theorems": [
    "C15_finer_report_partial",
    "C15_finer_report_otherwise",
    "C15_large_bitmap_refuted",
    "C15_small_bitmap_refuted"
   ],
   "note": "false for client bitmaps over 24 bytes or not a multiple of the page size ratio, where the report never returns (C15_finer_report_otherwise says exactly what happens); proved for the rest"
  },
  {
   "property": "C16",
   "status": "partial",
   "theorems": [
    "C16_coarser_report_partial",
    "C16_coarser_report_wraps",
    "C16_large_bitmap_refuted"
   ],
   "note": "false when a page in client page 256 or beyond is logged: it is reported modulo 256 (C16_coarser_report_wraps gives the exact report); proved for every other report"
  },
  {
   "property": "C17",
   "status": "proved",
   "theorems": [
    "C17_start_answers",
    "C17_logs_exist",
    "C17_start_effect",
    "C17_start_exact",
    "C17_stop_effect",
    "C17_map_while_logging",
    "C17_client_start",
    "C17_client_stop",
    "C17_client_refused"
   ],
   "note": ""
  },
  {
   "property": "C18",
   "status": "proved",
   "theorems": [
    "C18_bitmap_size",
    "C18_huge_range_refuted"
   ],
   "note": "range length below 2^64-64"
  },
  {
   "property": "C19",
   "status": "proved",
   "theorems": [
    "C19_short_refused",
    "C19_access_bounds",
    "C19_every_payload"
   ],
   "note": "region sizes are 32-bit values (as stored by vfu_setup_region)"
  },
  {
   "property": "C20",
   "status": "proved",
   "theorems": [
    "C20_access_reply",
    "C20_no_callback",
    "C20_reply_shape",
    "C20_config_read"
   ],
   "note": "a callback that fails with errno 0 gives a reply without error"
  },
  {
   "property": "C21",
   "status": "proved",
   "theorems": [
    "C21_invalid_refused",
    "C21_invalid_no_effect",
    "C21_whole_or_not",
    "C21_incomplete_refused"
   ],
   "note": "the last two: a message whose payload does not arrive whole is refused, with which error number"
  },
  {
   "property": "C22",
   "status": "partial",
   "theorems": [
    "C22_exact",
    "C22_at_most_once",
    "C22_every_request_answered_partial"
   ],
   "note": "every request gets at most one reply, in order, always; exactly one is proved for histories in which no asynchronous quiesce fails and no reply fails to be sent (see C23); C22_exact says for every history which requests are never answered"
  },
  {
   "property": "C23",
   "status": "partial",
   "theorems": [
    "C23_exact",
    "C23_refuted",
    "C23_sync_failure_partial"
   ],
   "note": "false for an asynchronous quiesce that fails (no reply at all, refuted theorem); proved for a quiesce callback that fails at once"
  },
  {
   "property": "C24",
   "status": "partial",
   "theorems": [
    "C24_quiesced_partial",
    "C24_exact",
    "C24_second_exp_refuted",
    "C24_straddling_write_refuted"
   ],
   "note": "false with a second PCI Express capability or for a config space write that starts before the device control register (refuted theorems); proved for the rest"
  },
  {
   "property": "C25",
   "status": "proved",
   "theorems": [
    "C25_busy",
    "C25_unexpected",
    "C25_completed",
    "C25_async_like_sync"
   ],
   "note": ""
  },
  {
   "property": "C26",
   "status": "proved",
   "theorems": [
    "C26_refused",
    "C26_executed"
   ],
   "note": ""
  },
  {
   "property": "C27",
   "status": "partial",
   "theorems": [
    "C27_step_partial",
    "C27_history_partial",
    "C27_never_twice_partial",
    "C27_exact",
    "C27_history_exact",
    "C27_repeated_map_leaks_refuted",
    "C27_mmap_failure_closes_twice_refuted"
   ],
   "note": "false for a repeated identical mapping (leak) and for a failing mmap (closed twice); proved for every other step, request and history; C27_exact needs no condition: in every step these two are the only descriptors not accounted for, by exactly one, and C27_history_exact says the same of whole histories"
  },
  {
   "property": "C28",
   "status": "proved",
   "theorems": [
    "C28_disconnect",
    "C28_disconnect_async",
    "C28_reply_fails",
    "C28_reply_fails_async",
    "C28_next_client_clean",
    "C28_irqs_reset",
    "C28_lost_during_dma"
   ],
   "note": ""
  },
  {
   "property": "C29",
   "status": "partial",
   "theorems": [
    "C29_receive",
    "C29_no_client",
    "C29_blocking_partial",
    "C29_exact",
    "C29_reply_refuted",
    "C29_body_refuted"
   ],
   "note": "false when the loss is noticed while replying or while receiving a body (refuted theorems); proved when it is noticed while waiting for a request; C29_exact says for every call what is reported"
  },
  {
   "property": "C30",
   "status": "proved",
   "theorems": [
    "C30_refused_without_notification",
    "C30_legal_transitions",
    "C30_histories",
    "C30_num_states_refuted"
   ],
   "note": "requested states other than 8 (VFIO_DEVICE_NUM_STATES), for which the transition table is read out of bounds (refuted theorem)"
  },
  {
   "property": "C31",
   "status": "proved",
   "theorems": [
    "C31_shortest_path",
    "C31_target_reached"
   ],
   "note": ""
  },
  {
   "property": "C32",
   "status": "partial",
   "theorems": [
    "C32_too_short",
    "C32_read",
    "C32_write",
    "C32_reply_fits_argsz_refuted",
    "C32_fits_exact"
   ],
   "note": "a read reply can be 8 bytes longer than argsz (refuted theorem); everything else is proved"
  },
  {
   "property": "C33",
   "status": "proved",
   "theorems": [
    "C33_refused_no_effect",
    "C33_short_payload_refused",
    "C33_accepted_safe",
    "C33_realize_table"
   ],
   "note": "tables as vfu_realize_ctx makes them, with fewer than 2^32-1 vectors and one error and request interrupt each"
  },
  {
   "property": "C34",
   "status": "proved",
   "theorems": [
    "C34_assign",
    "C34_trigger"
   ],
   "note": ""
  },
  {
   "property": "C35",
   "status": "partial",
   "theorems": [
    "C35_disable_partial",
    "C35_disable_exact",
    "C35_disable_refuted"
   ],
   "note": "false for start > 0 (the loop ends at count instead of start+count; C35_disable_exact says exactly which vectors are unbound for every start); proved for start = 0"
  },
  {
   "property": "C36",
   "status": "proved",
   "theorems": [
    "C36_trigger_none",
    "C36_trigger_bool",
    "C36_all_signalled"
   ],
   "note": ""
  },
  {
   "property": "C37",
   "status": "proved",
   "theorems": [
    "C37_mask_unmask"
   ],
   "note": ""
  },
  {
   "property": "C38",
   "status": "proved",
   "theorems": [
    "C38_region_info",
    "C38_refused",
    "C38_second_request"
   ],
   "note": "reply sizes below 2^32"
  },
  {
   "property": "C39",
   "status": "proved",
   "theorems": [
    "C39_io_fds",
    "C39_refused"
   ],
   "note": "descriptors at least -1 and reply size below 2^32"
  },
  {
   "property": "C40",
   "status": "partial",
   "theorems": [
    "C40_established",
    "C40_announced",
    "C40_twin",
    "C40_descriptors",
    "C40_descriptors_sessions",
    "C40_only_same_major",
    "C40_refused_partial",
    "C40_failed_closes",
    "C40_huge_limit_accepted_refuted",
    "C40_exact"
   ],
   "note": "the descriptor limit is truncated to an int before the check, so some limits above 2^32 are accepted (refuted theorem); everything else is proved; JSON text parsing and printing are arguments"
  },
  {
   "property": "C41",
   "status": "partial",
   "theorems": [
    "C41_announced_partial",
    "C41_truncated_refuted",
    "C41_progress_partial",
    "C41_zero_never_ends_refuted",
    "C41_large_read_refuted",
    "C41_announced_exact"
   ],
   "note": "false for announced values of 2^31 and more, for 0 and for reads above 1 MiB (refuted theorems); proved from 1 byte to 1 MiB"
  },
  {
   "property": "C42",
   "status": "partial",
   "theorems": [
    "C42_one_entry",
    "C42_messages",
    "C42_terminates",
    "C42_read_delivers",
    "C42_client",
    "C42_write_confirmed_partial",
    "C42_write_unconfirmed_refuted"
   ],
   "note": "false for a write whose reply has no body, which is compared with uninitialised memory (refuted theorem); everything else is proved for every client"
  },
  {
   "property": "C43",
   "status": "partial",
   "theorems": [
    "C43_read_returns_config_space",
    "C43_library_bytes_partial",
    "C43_straddling_refuted"
   ],
   "note": "false for an access that starts inside a capability and runs past its end into a device-handled one; proved for the rest"
  },
  {
   "property": "C44",
   "status": "partial",
   "theorems": [
    "C44_protected_bytes_partial",
    "C44_straddling_refuted",
    "C44_unordered_refuted"
   ],
   "note": "false for writes that start inside a capability and run past its end, or when capabilities are placed out of order; proved for the rest"
  },
  {
   "property": "C45",
   "status": "partial",
   "theorems": [
    "C45_header_writes",
    "C45_command_write",
    "C45_simple_registers",
    "C45_bar_mask_refuted"
   ],
   "note": "BAR type bits can be cleared by the client (refuted theorem); everything else is proved"
  },
  {
   "property": "C46",
   "status": "proved",
   "theorems": [
    "C46_bar_sizing",
    "C46_bar_address"
   ],
   "note": ""
  },
  {
   "property": "C47",
   "status": "proved",
   "theorems": [
    "C47_capabilities",
    "C47_accepted",
    "C47_past_256_refuted",
    "C47_short_vendor_refuted"
   ],
   "note": "vendor capabilities at least as long as their header; in an extended config space as long as standard capabilities stay in the first 256 bytes (refuted theorems show both are needed)"
  },
  {
   "property": "C48",
   "status": "partial",
   "theorems": [
    "C48_standard",
    "C48_enumerate",
    "C48_extended_partial",
    "C48_ext_last_exact",
    "C48_ext_last_refuted"
   ],
   "note": "false for the next extended capability after the last (refuted theorem); proved for the rest"
  },
  {
   "property": "C49",
   "status": "partial",
   "theorems": [
    "C49_register_writes",
    "C49_msi_enable",
    "C49_flr",
    "C49_accepted_writes",
    "C49_pm_refuted"
   ],
   "note": "the whole power management control register is writable, including read-only fields (refuted theorem); the rest is proved for writes inside one capability"
  },
  {
   "property": "C50",
   "status": "proved",
   "theorems": [
    "C50_header_round_trip",
    "C50_reply",
    "C50_command",
    "C50_history",
    "C50_client_reads_reply",
    "C50_client_reads_any"
   ],
   "note": "UNIX socket transport"
  },
  {
   "property": "C51",
   "status": "partial",
   "theorems": [
    "C51_unfragmented_partial",
    "C51_all_handled_partial",
    "C51_body_fragment",
    "C51_header_fragment_refuted",
    "C51_body_fragment_refuted"
   ],
   "note": "false: a fragmented header drops the connection, a fragmented body desynchronises it (refuted theorems); proved when each read finds all the bytes it asks for"
  },
  {
   "property": "C52",
   "status": "partial",
   "theorems": [
    "C52_callbacks",
    "C52_vectors",
    "C52_migration",
    "C52_pci_init",
    "C52_pci_id",
    "C52_pci_class",
    "C52_poke",
    "C52_ioeventfd",
    "C52_other_calls",
    "C52_region",
    "C52_refused_unchanged",
    "C52_create",
    "C52_realize",
    "C52_realize_succeeds",
    "C52_realized_fresh",
    "C52_not_realized",
    "C52_area_outside_refuted",
    "C52_size_truncated_refuted",
    "C52_stale_areas_refuted",
    "C52_refused_region_refuted",
    "C52_refused_migration_refuted",
    "C52_small_config_refuted",
    "C52_config_size_refuted",
    "C52_late_vectors_refuted"
   ],
   "note": "false for areas that wrap, sizes above 2^32, areas of an earlier registration, two kinds of refused calls and late or inconsistent sizes (refuted theorems); everything else is proved"
  },
  {
   "property": "C53",
   "status": "partial",
   "theorems": [
    "C53_no_crash_partial",
    "C53_set_up_no_crash_partial",
    "C53_attach",
    "C53_short_unmap_refuted",
    "C53_short_feature_refuted",
    "C53_state_8_refuted",
    "C53_logging_without_dma_refuted",
    "C53_partial_register_refuted",
    "C53_past_capability_refuted",
    "C53_reports_refuted",
    "C53_requests_exact",
    "C53_writes_crash"
   ],
   "note": "false for short unmap and feature payloads, migration state 8, logging without DMA, partial header register writes, writes running past a capability and some dirty page reports (refuted theorems); proved for every history of all other messages; for unmap and feature requests that ask for no report of dirty pages, exactly which crash (C53_requests_exact); C53_writes_crash: every write that starts with part of a register or runs past an MSI or MSI-X capability does"
  },
  {
   "property": "C54",
   "status": "proved",
   "theorems": [
    "C54_unsupported",
    "C54_short",
    "C54_probe",
    "C54_get_and_set",
    "C54_get",
    "C54_set_state"
   ],
   "note": ""
  },
  {
   "property": "C55",
   "status": "proved",
   "theorems": [
    "C55_irq_info",
    "C55_irq_info_short",
    "C55_device_info",
    "C55_device_info_short"
   ],
   "note": ""
  },
  {
   "property": "C56",
   "status": "partial",
   "theorems": [
    "C56_destroy",
    "C56_destroy_setup",
    "C56_destroy_exact",
    "C56_life_exact",
    "C56_pending_refuted"
   ],
   "note": "false for the descriptors of a request that waits for the device to quiesce (refuted theorem); proved for everything else; C56_destroy_exact: those are the only ones it leaves open, and C56_life_exact accounts for every descriptor from set-up to destruction"
  },
  {
   "property": "C57",
   "status": "partial",
   "theorems": [
    "C57_reply_partial",
    "C57_reply_accepted",
    "C57_reply_delivered_partial",
    "C57_transfer_partial",
    "C57_transfer_fails",
    "C57_transfer_exact",
    "C57_requests_partial",
    "C57_all_handled_partial",
    "C57_as_on_a_socket",
    "C57_states",
    "C57_attached",
    "C57_disconnect",
    "C57_negotiation_partial",
    "C57_reply_size_refuted",
    "C57_client_reads_reply_refuted",
    "C57_short_write_refuted",
    "C57_reply_fragment_refuted",
    "C57_request_fragment_refuted",
    "C57_no_client_refuted",
    "C57_lost_again_refuted",
    "C57_attach_twice_refuted"
   ],
   "note": "false for the length in headers, short writes, fragmented payloads and a missing or lost client (refuted theorems); everything else is proved"
  },
  {
   "property": "C58",
   "status": "proved",
   "theorems": [
    "C58_created",
    "C58_not_created",
    "C58_descriptors",
    "C58_names",
    "C58_destroyed",
    "C58_nothing_left",
    "C58_poll",
    "C58_name_stolen_refuted"
   ],
   "note": "C58_name_stolen_refuted shows that the assumption about names is needed"
  },
  {
   "property": "C59",
   "status": "proved",
   "theorems": [
    "C59_write_reported",
    "C59_write_in_unmap",
    "C59_report_of_a_part_refuted",
    "C59_refused_unmap_refuted"
   ],
   "note": "the two refuted theorems show that the conditions on the requests in between are about the region's address, not the page: a report for a part of the region, or a refused unmap, forgets marks"
  },
  {
   "property": "C60",
   "status": "proved",
   "theorems": [
    "C60_header",
    "C60_header_read",
    "C60_ids",
    "C60_class",
    "C60_region",
    "C60_irqs"
   ],
   "note": "for set-up calls that place capabilities where the library chooses, with standard ones in the first 256 bytes (C47_past_256_refuted), and a config space region without the flag that leaves everything to the callback"
  },
  {
   "property": "C61",
   "status": "partial",
   "theorems": [
    "C61_placed_partial",
    "C61_accepted",
    "C61_explicit",
    "C61_rising",
    "C61_not_on_top",
    "C61_refused_unchanged",
    "C61_chosen_refuted",
    "C61_adjacent_refuted",
    "C61_assertions_refuted"
   ],
   "note": "false when the library chooses a place after a position below an earlier capability: it does not check what is there (refuted theorem); proved when every request has a position, when positions rise, and in general when the library's choices are free; a capability that would end exactly where another begins is refused and two kinds of bad positions fail an assertion (refuted theorems); the exact answer to every other request with a position is C61_accepted"
  },
  {
   "property": "C62",
   "status": "proved",
   "theorems": [
    "C62_trigger"
   ],
   "note": "histories exclude requests that take away vectors not starting at 0, for which C35_disable_refuted shows what happens"
  },
  {
   "property": "C63",
   "status": "proved",
   "theorems": [
    "C63_device_view",
    "C63_source",
    "C63_destination",
    "C63_end_to_end",
    "C63_no_reset_callback_refuted"
   ],
   "note": "the view theorem is for devices with a reset callback, as the property says; C63_no_reset_callback_refuted shows why"
  },
  {
   "property": "C64",
   "status": "partial",
   "theorems": [
    "C64_between_calls",
    "C64_between_calls_say",
    "C64_callbacks_exact",
    "C64_events",
    "C64_callback_aborts_refuted"
   ],
   "note": "the exact condition is proved: false for the configuration space callback during a write to the PCI Express device control register, for which the device was quiesced (refuted theorem), true for every other callback and between calls"
  },
  {
   "property": "C65",
   "status": "partial",
   "theorems": [
    "C65_list_stays_valid_partial",
    "C65_nothing_unregistered",
    "C65_until_quiesced",
    "C65_after_unregister",
    "C65_other_region_unregistered_refuted"
   ],
   "note": "proved as long as no region registered before those of the list is unregistered either; false otherwise (refuted theorem), and C65_after_unregister says exactly what the entries then stand for"
  },
  {
   "property": "C66",
   "status": "proved",
   "theorems": [
    "C66_write_pieces",
    "C66_read_pieces",
    "C66_gap_write",
    "C66_gap_read",
    "C66_device_capability_write",
    "C66_device_capability_read",
    "C66_short_read",
    "C66_short_write",
    "C66_protected_write",
    "C66_inside_register",
    "C66_past_read",
    "C66_past_write",
    "C66_write_request",
    "C66_read_request"
   ],
   "note": "capabilities in order as in C47; accesses starting mid-capability and running past its end excluded as the statement says (C43/C44_straddling_refuted), and described exactly by C66_past_read and C66_past_write; registers of library-handled capabilities and of the header: C45, C46, C49"
  },
  {
   "property": "C67",
   "status": "proved",
   "theorems": [
    "C67_untouched",
    "C67_persists",
    "C67_read",
    "C67_read_back",
    "C67_register"
   ],
   "note": "devices set up as in C60 (capabilities placed by the library); region 7 without the flag that leaves everything to the callback; C67_untouched holds for any layout"
  },
  {
   "property": "C68",
   "status": "proved",
   "theorems": [
    "C68_only_marks",
    "C68_report",
    "C68_second_report",
    "C68_unmap"
   ],
   "note": "the theorems about replies are for reports in the page size of the log (other sizes: C15, C16); C68_only_marks speaks about the log and has no such restriction"
  },
  {
   "property": "C69",
   "status": "proved",
   "theorems": [
    "C69_frame",
    "C69_queries",
    "C69_refused",
    "C69_refused_halfway",
    "C69_device"
   ],
   "note": "the three exceptions in the statement do occur: C59_refused_unmap_refuted, C69_half_write_refuted, C69_half_migration_refuted"
  },
  {
   "property": "C70",
   "status": "proved",
   "theorems": [
    "C70_extent",
    "C70_stored",
    "C70_read",
    "C52_poke",
    "C70_set_up"
   ],
   "note": "C70_read is for devices set up as in C60 that leave the read-only part of the header alone, region 7 without the flag that leaves everything to the callback; that nothing else changes is C69_device"
  },
  {
   "property": "C71",
   "status": "proved",
   "theorems": [
    "C71_request",
    "C71_none",
    "C71_error",
    "C71_blocking",
    "C71_quiesced"
   ],
   "note": "C71_none assumes that errors have nonzero numbers and that the quiesce callback, called because the connection was lost, does not fail with EAGAIN or ENOMSG, which vfu_run_ctx takes for its own"
  },
  {
   "property": "C72",
   "status": "proved",
   "theorems": [
    "C72_request",
    "C72_quiesced",
    "C72_reachable",
    "C72_nothing_done",
    "C72_replies",
    "C72_hangup",
    "C72_reset_later",
    "C72_parting_reachable",
    "C72_parting_nothing_done",
    "C72_request_all",
    "C72_quiesced_all",
    "C72_stores_seen"
   ],
   "note": "C72_stores_seen shows that the exception for stores is needed; vfu_addr_to_sgl, vfu_sgl_mark_dirty, vfu_sgl_put, vfu_irq_trigger and stores to configuration space are the calls covered"
  },
  {
   "property": "C73",
   "status": "partial",
   "theorems": [
    "C73_marked_when_quiescing_partial",
    "C73_marked_when_unregistering_refuted"
   ],
   "note": "true of the quiesce callback; false of dma_unregister, because the bitmap is collected before the callback is made (the mark is lost with the region)"
  },
  {
   "property": "C74",
   "status": "partial",
   "theorems": [
    "C74_safe",
    "C74_own",
    "C74_held",
    "C74_accesses",
    "C74_no_leak_partial",
    "C74_leak_refuted"
   ],
   "note": "no double free, no use after free, no shared buffer, and an exact count of what is held; false that all memory is given back: the log of a region removed while logging is on is never freed"
  },
  {
   "property": "C75",
   "status": "partial",
   "theorems": [
    "C75_safe",
    "C75_held",
    "C75_no_leak_partial",
    "C75_no_pair_refuted",
    "C75_destroy_refuted"
   ],
   "note": "no double free or use after free on any path, and an exact account of what is allocated; two leaks: a negotiation whose socketpair fails, and destroying a context that holds a request"
  },
  {
   "property": "C76",
   "status": "partial",
   "theorems": [
    "C76_create",
    "C76_create_outcome",
    "C76_create_refuted",
    "C76_held",
    "C76_destroy",
    "C76_no_leak_partial",
    "C76_leak_refuted",
    "C76_realize_once"
   ],
   "note": "no double free or use after free for any set-up history, and an exact count of what is lost; true for devices that set everything up at most once; false when something is set up twice, and a creation that cannot allocate the name or the regions reads through NULL instead of returning NULL"
  },
  {
   "property": "C77",
   "status": "proved",
   "theorems": [
    "C77_request",
    "C77_request_later",
    "C77_not_quiesced",
    "C77_then_running",
    "C77_reason"
   ],
   "note": "for a device that is not stopped for migration (C26_refused: a stopped one refuses the request)"
  },
  {
   "property": "C78",
   "status": "proved",
   "theorems": [
    "C78_step",
    "C78_history"
   ],
   "note": "for replies that can be sent, as in the statement: a reply that cannot be sent may end the connection, which a request without a reply does not notice"
  },
  {
   "property": "C79",
   "status": "partial",
   "theorems": [
    "C79_step_partial",
    "C79_log_only",
    "C79_history_partial",
    "C79_small_map_refuted",
    "C79_unloggable_map"
   ],
   "note": "false for mapping memory (with a descriptor) of less than a logged page, which is refused while pages are logged (refuted theorem), and for maps for which no bitmap can be allocated; those are shown to be refused, with the descriptor closed and nothing else changed (C79_unloggable_map); proved for all other steps and histories; unmap requests that also ask for a report are neither left out nor compared"
  }
 ]
}