{"id": "C01", "title": "Registered DMA regions never overlap", "statement": "After any sequence of DMA map, DMA unmap (exact, all) and connection-loss operations in which every requested range ends below 2^64, no guest address belongs to two registered DMA regions.", "quantifier": "every finite sequence of map/unmap/unmap-all operations with arbitrary addresses, sizes, fds, offsets, protections, and every outcome of fstat/mmap", "why_tests_cant": "overlap depends on the whole history of previously accepted regions; the space of histories and 64-bit addresses is unbounded for tests", "anchors": ["lib/dma.c:dma_controller_add_region", "lib/dma.c:dma_controller_remove_region", "lib/dma.c:dma_controller_remove_all_regions"]}
{"id": "C02", "title": "DMA table stays within its advertised limits and failed maps change nothing", "statement": "At every moment at most 64 DMA regions are registered, each no larger than 8 TiB; a map request that fails leaves the set of registered regions exactly as it was.", "quantifier": "every sequence of map/unmap operations and every failure point inside a map (size, conflict, table full, fstat failure, bitmap failure, mmap failure)", "why_tests_cant": "needs all histories and all failure points; a test can only try a few", "anchors": ["lib/dma.c:dma_controller_add_region", "lib/private.h:MAX_DMA_REGIONS", "lib/private.h:MAX_DMA_SIZE"]}
{"id": "C03", "title": "Mapping the same region twice is idempotent and conflicting re-maps are refused", "statement": "A map request for exactly a registered range succeeds without changing the table if file, offset and protection agree with the registered one, and fails with EINVAL without changing the table if one of them differs.", "quantifier": "every table reachable by map/unmap operations, every registered region in it and every repeated request", "why_tests_cant": "position of the region in the table and the other table contents are arbitrary", "anchors": ["lib/dma.c:dma_controller_add_region", "lib/dma.c:fds_are_same_file"]}
{"id": "C04", "title": "Unmap removes exactly the named region", "statement": "An unmap of [addr,addr+len) succeeds exactly when a region with precisely that base and length is registered; it then removes that one region, preserves every other region and their order, and otherwise fails with ENOENT leaving the table unchanged. A successful fresh map followed by its unmap restores the table.", "quantifier": "every reachable table and every (addr,len) pair", "why_tests_cant": "all table contents and all 64-bit pairs", "anchors": ["lib/dma.c:dma_controller_remove_region", "lib/dma.c:array_remove"]}
{"id": "C05", "title": "The device's view of DMA memory tracks the library's", "statement": "Replaying the register and unregister notifications the device has received gives exactly the set of regions the library currently has registered, after any history of map, unmap, unmap-all and connection loss.", "quantifier": "every finite history of DMA operations, with arbitrary success or failure of each", "why_tests_cant": "an invariant over unbounded histories", "anchors": ["lib/libvfio-user.c:handle_dma_map", "lib/libvfio-user.c:handle_dma_unmap", "lib/dma.c:dma_controller_remove_region", "lib/dma.c:dma_controller_remove_all_regions"]}
{"id": "C06", "title": "vfu_addr_to_sgl tiles the requested range exactly", "statement": "When vfu_addr_to_sgl succeeds with n entries for a nonempty range, the entries, taken in order, cover [addr, addr+len) exactly once: they are non-empty, contiguous, start at addr, end at addr+len, each lies inside the registered region it names, and no entry exceeds its region.", "quantifier": "every reachable table without wrapping regions, every addr, len, array size, protection and every value of the per-thread lookup hint", "why_tests_cant": "quantifies over all tables, adjacency patterns, ranges and hint values", "anchors": ["lib/dma.h:dma_addr_to_sgl", "lib/dma.c:_dma_addr_sg_split", "lib/dma.h:dma_init_sg"]}
{"id": "C07", "title": "vfu_addr_to_sgl fails exactly when it should and reports the exact number of entries needed", "statement": "vfu_addr_to_sgl fails with ENOENT exactly when some byte of the range belongs to no registered region (and no protection failure came first); when the caller's array is too small it returns -x-1 where x is precisely the number of entries a retry needs, and the retry with x entries succeeds.", "quantifier": "every reachable table, range, array size and protection", "why_tests_cant": "both directions of an iff over all tables and ranges", "anchors": ["lib/dma.h:dma_addr_to_sgl", "lib/dma.c:_dma_addr_sg_split"]}
{"id": "C08", "title": "Write protection of DMA regions is enforced", "statement": "vfu_addr_to_sgl asked for write access never returns an entry in a region the client mapped without write permission (it fails with EACCES), and an entry obtained without write access is never marked dirty nor accepted by vfu_sgl_write (EPERM).", "quantifier": "every table, range, protection value and scatter/gather list", "why_tests_cant": "all tables, ranges and protection masks", "anchors": ["lib/dma.h:dma_init_sg", "lib/dma.h:dma_sgl_mark_dirty", "lib/libvfio-user.c:vfu_dma_transfer"]}
{"id": "C09", "title": "Address translation does not depend on the hidden per-thread hint", "statement": "The result of vfu_addr_to_sgl (return value and entries) is the same whatever translations the thread performed before, including on other contexts.", "quantifier": "every table of non-wrapping regions, every request with at least one output entry, every pair of hint values", "why_tests_cant": "the hint is hidden state depending on the whole call history of the thread", "anchors": ["lib/dma.h:dma_addr_to_sgl"]}
{"id": "C10", "title": "vfu_sgl_get returns addresses inside the region's mapping", "statement": "For an entry obtained from vfu_addr_to_sgl on a region the client supplied with a page-aligned file offset, vfu_sgl_get yields an iovec of the entry's length lying inside the memory mapped for that region, and distinct guest bytes map to distinct host bytes; it fails with EFAULT for regions without a mapping.", "quantifier": "every reachable table, every entry produced by translation", "why_tests_cant": "pointer containment must hold for every region geometry", "anchors": ["lib/dma.h:dma_sgl_get", "lib/dma.c:dma_map_region"]}
{"id": "C11", "title": "Unmapped tail with unaligned file offsets", "statement": "For every region supplied with an fd, the host range [vaddr, vaddr+len) handed to the device lies inside the range actually mapped, including when the client's file offset is not page aligned.", "quantifier": "every offset, size and page size", "why_tests_cant": "boundary arithmetic over all 64-bit offsets", "anchors": ["lib/dma.c:dma_map_region"]}
{"id": "C12", "title": "Marking dirty sets exactly the touched pages", "statement": "While logging with a power-of-two page size, marking a scatter/gather entry of a file-backed region dirty sets the bits of exactly those pages of its region that intersect the entry's byte range, and changes no other bit; all bits written lie inside the region's bitmap.", "quantifier": "every region length, page size that is a power of two, entry offset and length inside the region, and prior bitmap contents", "why_tests_cant": "bit and byte boundary cases combine over unbounded sizes", "anchors": ["lib/dma.h:_dma_mark_dirty", "lib/dma.h:range_to_pages", "lib/common.h:get_bitmap_size"]}
{"id": "C13", "title": "Fetching the dirty log returns every logged page once and clears it", "statement": "With the client page size equal to the logging page size, a dirty report returns exactly the set of pages logged since the previous report and leaves the log empty; a page dirtied later appears in a later report.", "quantifier": "every sequence of mark and report operations on a region", "why_tests_cant": "histories of arbitrary length", "anchors": ["lib/dma.c:dma_controller_dirty_page_get", "lib/dma.c:dirty_page_get_same_pgsize", "lib/dma.c:dirty_page_exchange"]}
{"id": "C14", "title": "No dirty page is lost under concurrent marking and reporting", "statement": "For every interleaving of the individual byte-wise atomic operations of any number of marking threads with a reporting thread, every page a marker has finished marking is in the report, in a previous report or still in the log; and a report contains only pages some marker marked.", "quantifier": "every schedule of atomic steps of any number of concurrent markers and successive reports", "why_tests_cant": "exponentially many interleavings; the racy zero check is only safe for a reason that must be argued over all of them", "anchors": ["lib/dma.c:dirty_page_exchange", "lib/dma.h:_dma_mark_dirty"]}
{"id": "C15", "title": "Dirty report at a finer client page size repeats each logged page", "statement": "When the client page size is smaller than the logging page size, client page p is reported dirty iff the logging page containing it was logged, for every client bitmap.", "quantifier": "every region size, page sizes and log contents", "why_tests_cant": "index arithmetic over all sizes; the 8-bit index in the code breaks it beyond a threshold", "anchors": ["lib/dma.c:dirty_page_get_extend"]}
{"id": "C16", "title": "Dirty report at a coarser client page size merges logged pages", "statement": "When the client page size is larger than the logging page size, client page p is reported dirty iff some logging page inside it was logged, for every client bitmap.", "quantifier": "every region size, page sizes and log contents", "why_tests_cant": "index arithmetic over all sizes; the 8-bit index in the code breaks it beyond a threshold", "anchors": ["lib/dma.c:dirty_page_get_combine"]}
{"id": "C17", "title": "Dirty logging start/stop life cycle", "statement": "Starting logging is idempotent for the same page size and refused with EINVAL for page size zero or a different size while active; a failed start leaves no region logging; after a successful start every mapped region has an all-clear log of the right size; stop drops every log, and regions mapped while logging is active are logged from the start.", "quantifier": "every reachable DMA table and every sequence of start/stop/map/unmap", "why_tests_cant": "invariant over unbounded histories including partial failure", "anchors": ["lib/dma.c:dma_controller_dirty_page_logging_start", "lib/dma.c:dma_controller_dirty_page_logging_stop", "lib/dma.c:dirty_page_logging_start_on_region"]}
{"id": "C18", "title": "Dirty bitmap size is exactly enough", "statement": "The computed bitmap size is the least multiple of 8 bytes holding one bit per page of the range, and the computation is refused exactly for page size zero or a range smaller than a page.", "quantifier": "every 64-bit range length and page size (range plus rounding below 2^64)", "why_tests_cant": "all 64-bit values", "anchors": ["lib/common.h:get_bitmap_size"]}
{"id": "C19", "title": "Region accesses never leave the region", "statement": "A region access callback (or the config space handler) is invoked only for a valid region index, with a non-zero byte count at most 1 MiB, with offset+count inside the region (computed without wrap-around), with, for writes, exactly the bytes supplied by the client, and never in the stop-and-copy migration state; every other request is failed with EINVAL without invoking the device.", "quantifier": "every message payload, region configuration and migration state", "why_tests_cant": "64-bit offset/count wrap-around cases and all payload lengths", "anchors": ["lib/libvfio-user.c:is_valid_region_access", "lib/libvfio-user.c:handle_region_access", "lib/libvfio-user.c:region_access", "lib/common.h:satadd_u64"]}
{"id": "C20", "title": "Region access replies echo the request and carry exactly the accessed bytes", "statement": "A successful region read is answered with the request's region, offset and count followed by exactly count bytes as produced by the device; a successful write is answered with the same header and no data; a short or failing callback gives an error reply.", "quantifier": "every valid access and every callback result", "why_tests_cant": "all sizes and callback outcomes", "anchors": ["lib/libvfio-user.c:handle_region_access"]}
{"id": "C21", "title": "Message headers are validated before anything is acted upon", "statement": "A message whose type is not command, whose size is smaller than the header, larger than the server maximum, or that has no payload (other than device reset) is answered with EINVAL, has no effect on device or DMA state, and triggers no device callback.", "quantifier": "every 16-byte header and server state", "why_tests_cant": "all header field combinations in all states", "anchors": ["lib/libvfio-user.c:is_valid_header", "lib/libvfio-user.c:get_request"]}
{"id": "C22", "title": "Every request gets exactly one matching reply", "statement": "Every request received gets exactly one reply, carrying the same message id and command, unless the client set no-reply (then none) or the connection was lost; replies are sent in the order the requests arrived. This holds when the device quiesces synchronously, asynchronously, and for requests rejected before execution.", "quantifier": "every sequence of requests, quiesce completions and callback results", "why_tests_cant": "traces of arbitrary length with asynchronous completion", "anchors": ["lib/libvfio-user.c:vfu_run_ctx", "lib/libvfio-user.c:get_request", "lib/libvfio-user.c:handle_request", "lib/libvfio-user.c:do_reply", "lib/libvfio-user.c:vfu_device_quiesced"]}
{"id": "C23", "title": "A quiesce failure still answers the client", "statement": "If the device reports that it failed to quiesce (vfu_device_quiesced with a non-zero errno), the pending operation is failed, i.e. the client gets an error reply, and the device is reset.", "quantifier": "every pending request and errno", "why_tests_cant": "requires the asynchronous path in every state", "anchors": ["lib/libvfio-user.c:vfu_device_quiesced"]}
{"id": "C24", "title": "The device is quiesced before disruptive callbacks", "statement": "If a quiesce callback is registered, DMA register and unregister, device reset and migration transition callbacks are only made after the device reported being quiesced (synchronously or through vfu_device_quiesced) for the current operation, and the device is unquiesced when the call returns.", "quantifier": "every history of requests, disconnects and quiesce answers", "why_tests_cant": "all interleavings of requests and asynchronous completions", "anchors": ["lib/libvfio-user.c:command_needs_quiesce", "lib/libvfio-user.c:get_request", "lib/libvfio-user.c:vfu_reset_ctx", "lib/libvfio-user.c:vfu_device_quiesced"]}
{"id": "C25", "title": "While quiescing, vfu_run_ctx does nothing", "statement": "While a quiesce is pending vfu_run_ctx returns EBUSY, receives nothing from the client, sends nothing, calls no device callback and changes no state; the pending operation is completed exactly once by vfu_device_quiesced; vfu_device_quiesced without a pending operation fails with EINVAL and changes nothing.", "quantifier": "every state and any number of calls", "why_tests_cant": "unbounded sequences of calls in the pending state", "anchors": ["lib/libvfio-user.c:vfu_run_ctx", "lib/libvfio-user.c:vfu_device_quiesced"]}
{"id": "C26", "title": "Commands allowed while stopped", "statement": "In the STOP and STOP_COPY migration states, only region read/write, device feature and migration data read requests are executed; everything else is refused with EINVAL and has no effect.", "quantifier": "every command code (including unknown ones) and server state", "why_tests_cant": "all 65536 command codes in all states", "anchors": ["lib/libvfio-user.c:should_exec_command", "lib/libvfio-user.c:cmd_allowed_when_stopped_and_copying"]}
{"id": "C27", "title": "File descriptors received from the client are never leaked or closed twice", "statement": "Every file descriptor received with a request is, when the request has completed, either owned by exactly one library object (a DMA region or an interrupt vector) or has been closed exactly once; descriptors owned by an object are closed exactly once when the object is unmapped, replaced, disabled or reset.", "quantifier": "every history of requests with arbitrary numbers of descriptors and arbitrary failures", "why_tests_cant": "ownership is an invariant over unbounded histories and failure points", "anchors": ["lib/libvfio-user.c:consume_fd", "lib/libvfio-user.c:free_msg", "lib/libvfio-user.c:handle_dma_map", "lib/dma.c:dma_controller_add_region", "lib/irq.c:irqs_set_data_eventfd", "lib/irq.c:irqs_disable"]}
{"id": "C28", "title": "Losing the connection returns the device to a clean state", "statement": "When the client disconnects (and the device quiesces), all DMA regions are unregistered and unmapped, the reset callback is called once with the lost-connection reason, all interrupt eventfds are closed, the connection is detached, and if the reset callback succeeds the migration state is RUNNING again.", "quantifier": "every state at the time of disconnection", "why_tests_cant": "all reachable states", "anchors": ["lib/libvfio-user.c:vfu_reset_ctx", "lib/libvfio-user.c:vfu_reset_ctx_quiesced", "lib/libvfio-user.c:device_reset", "lib/irq.c:irqs_reset"]}
{"id": "C29", "title": "A lost connection is reported as ENOTCONN", "statement": "Whenever vfu_run_ctx finds that the client connection is lost, it returns -1 with ENOTCONN once the context has been reset.", "quantifier": "every way the connection can fail: receiving a header, receiving a body, sending a reply", "why_tests_cant": "failure can hit at any point of the exchange", "anchors": ["lib/libvfio-user.c:get_request_header", "lib/libvfio-user.c:do_reply", "lib/libvfio-user.c:vfu_run_ctx"]}
{"id": "C30", "title": "Only legal migration transitions reach the device", "statement": "Every migration transition notified to the device is along an edge of the documented state graph from the device's current state; the state reported to the client is always the last state the device accepted; requests to or from ERROR, to the peer-to-peer states, and STOP_COPY to PRE_COPY are refused without any notification.", "quantifier": "every sequence of state requests and transition callback results", "why_tests_cant": "all histories of requests with failures at any step", "anchors": ["lib/migration.c:migration_set_state", "lib/migration.c:handle_device_state", "lib/migration.c:vfio_migr_state_transition_is_valid"]}
{"id": "C31", "title": "A migration state request always terminates at the target along a shortest legal path", "statement": "If the device accepts every transition, a request between supported states (other than STOP_COPY to PRE_COPY) ends in the requested state after a shortest sequence of legal transitions; if the device refuses one, the request fails and the device stays in the last accepted state.", "quantifier": "every pair of states and every callback behaviour", "why_tests_cant": "termination of a data driven loop for all states and callback outcomes", "anchors": ["lib/migration.c:migration_set_state", "lib/migration.c:next_state", "lib/migration.c:transitions"]}
{"id": "C32", "title": "Migration data moves only in the right states and sizes", "statement": "The read_data callback is only invoked in PRE_COPY or STOP_COPY and the write_data callback only in RESUMING, with sizes within the negotiated maximum and the client's buffer; the reply carries exactly the size the device produced; writes are all-or-nothing.", "quantifier": "every message, state, negotiated limit and callback result", "why_tests_cant": "all payload sizes and states", "anchors": ["lib/migration.c:handle_mig_data_read", "lib/migration.c:handle_mig_data_write"]}
{"id": "C33", "title": "Interrupt configuration never leaves the configured vectors", "statement": "A SET_IRQS request is accepted only if its index, start and count lie inside the configured vectors (no 32-bit wrap-around), action and data types are single valid values and the number of descriptors matches; accepted requests never touch memory outside the interrupt table; others are refused with EINVAL and no effect.", "quantifier": "every SET_IRQS payload, descriptor count and interrupt configuration", "why_tests_cant": "32-bit wrap-around cases and all flag combinations", "anchors": ["lib/irq.c:device_set_irqs_validate", "lib/irq.c:handle_device_set_irqs", "lib/common.h:satadd_u32"]}
{"id": "C34", "title": "Assigning eventfds binds exactly the requested vectors", "statement": "Assigning eventfds to vectors [start,start+count) makes vector start+i signal the i-th descriptor supplied, closes the previously bound ones, and leaves all other vectors unchanged; afterwards vfu_irq_trigger(v) signals exactly the descriptor bound to v, or fails with ENOENT if none and EINVAL if v is out of range.", "quantifier": "every reachable interrupt table and range", "why_tests_cant": "all tables, ranges and histories", "anchors": ["lib/irq.c:irqs_set_data_eventfd", "lib/irq.c:vfu_irq_trigger", "lib/irq.c:irqs_get_efd"]}
{"id": "C35", "title": "Disabling interrupts unbinds exactly the requested vectors", "statement": "A request disabling vectors [start,start+count) (or all with count 0) closes and unbinds exactly those vectors.", "quantifier": "every start, count and interrupt table", "why_tests_cant": "all ranges", "anchors": ["lib/irq.c:irqs_disable"]}
{"id": "C36", "title": "Client-triggered interrupts signal exactly the selected vectors", "statement": "SET_IRQS with data none (or bool) signals, in order, exactly the bound eventfds among the requested vectors (whose flag byte is 1), and nothing else.", "quantifier": "every range, flag bytes and table", "why_tests_cant": "all ranges and tables", "anchors": ["lib/irq.c:irqs_set_data_none", "lib/irq.c:irqs_set_data_bool"]}
{"id": "C37", "title": "Mask and unmask notifications", "statement": "A mask/unmask request on an interrupt type with a state callback invokes it exactly once with the client's range and the right direction, and binds, unbinds or signals nothing.", "quantifier": "every request", "why_tests_cant": "all requests and tables", "anchors": ["lib/irq.c:irqs_set_state"]}
{"id": "C38", "title": "Region info replies never overrun and announce the needed size", "statement": "A region info reply is at most as long as the client's argsz, always announces the size needed for the capabilities, and includes the complete sparse-mmap list, with the region's fd, exactly when it fits; following the announced size on a second request always yields the complete list.", "quantifier": "every region configuration and argsz", "why_tests_cant": "all argsz values and area counts", "anchors": ["lib/libvfio-user.c:handle_device_get_region_info", "lib/libvfio-user.c:dev_get_caps", "lib/libvfio-user.c:get_vfio_caps_size"]}
{"id": "C39", "title": "ioeventfd replies describe each sub-region with the right descriptor", "statement": "A region io-fds reply lists each configured ioeventfd exactly once with fd_index pointing at its descriptor in the list sent along; each distinct descriptor is sent once; a reply that does not fit carries only the needed size.", "quantifier": "every list of ioeventfds and argsz", "why_tests_cant": "all lists with arbitrary duplication", "anchors": ["lib/libvfio-user.c:handle_device_get_region_io_fds", "lib/libvfio-user.c:add_fd_index"]}
{"id": "C40", "title": "Version negotiation", "statement": "A connection is established only with a client of the same major version; the minor version announced is the lower of the two; limits not mentioned by the client take their documented defaults; a client announcing a descriptor limit outside 0..1024 is refused with an error reply.", "quantifier": "every version message and parsed capability set", "why_tests_cant": "all version numbers and capability combinations", "anchors": ["lib/tran.c:recv_version", "lib/tran.c:send_version", "lib/tran.c:tran_negotiate"]}
{"id": "C41", "title": "Negotiated transfer size is usable", "statement": "After a successful negotiation the maximum transfer size used for server-initiated DMA is the value the client announced, and DMA transfers make progress.", "quantifier": "every announced value", "why_tests_cant": "all 64-bit values; truncation and zero corner cases", "anchors": ["lib/tran.c:tran_parse_version_json", "lib/libvfio-user.c:vfu_dma_transfer"]}
{"id": "C42", "title": "vfu_sgl_read and vfu_sgl_write transfer exactly the segment", "statement": "When vfu_sgl_read/vfu_sgl_write succeeds, the messages sent cover exactly the segment's guest addresses in order, each no longer than the client's maximum transfer size, and the bytes delivered are exactly the bytes of the client's memory (read) or the caller's buffer (write); a reply with another address or count fails the call with EINVAL; a list that does not have exactly one entry is refused with ENOTSUP and nothing is sent.", "quantifier": "every segment length, negotiated limit and client reply", "why_tests_cant": "chunk arithmetic for all sizes and all client behaviours", "anchors": ["lib/libvfio-user.c:vfu_dma_transfer", "lib/libvfio-user.c:vfu_sgl_read", "lib/libvfio-user.c:vfu_sgl_write"]}
{"id": "C43", "title": "Config space reads return the config space", "statement": "A read of the config space handled by the library returns exactly the bytes of the config space at that offset, however the range is split across header, capabilities and gaps, and modifies nothing.", "quantifier": "every offset, length, capability layout and config space contents", "why_tests_cant": "all splits over all layouts", "anchors": ["lib/pci.c:pci_config_space_access", "lib/pci.c:pci_config_space_next_segment", "lib/pci.c:pci_hdr_access", "lib/pci_caps.c:pci_cap_access"]}
{"id": "C44", "title": "Read-only capabilities and capability headers cannot be modified by the client", "statement": "A client write never changes a byte of a capability registered read-only nor the id/next header of any library-handled capability, and such a write is failed.", "quantifier": "every capability layout, config space, write range and data", "why_tests_cant": "all offsets and write lengths including those spanning several capabilities", "anchors": ["lib/pci_caps.c:pci_cap_access", "lib/pci.c:pci_config_space_access", "lib/pci_caps.c:cap_find_by_offset"]}
{"id": "C45", "title": "Client writes to the PCI header only change writable registers", "statement": "A client write to the standard header changes only the command register's supported bits, BARs (masked to the BAR size), interrupt line, cache line size, latency timer, expansion ROM address and the BIST/status bits the library allows; ids, class, header type and the capability pointer never change.", "quantifier": "every config space, offset, length and data", "why_tests_cant": "all offsets, lengths and register contents", "anchors": ["lib/pci.c:pci_hdr_write", "lib/pci.c:handle_command_write", "lib/pci.c:pci_hdr_write_bar", "lib/pci.c:handle_erom_write"]}
{"id": "C46", "title": "Writing all ones to a BAR reveals its size", "statement": "After a client writes all ones to a BAR of a power-of-two sized region, the address bits read back are exactly the mask of the region's size, and reading back an aligned address returns it.", "quantifier": "every region size and written value", "why_tests_cant": "all sizes and 32-bit values", "anchors": ["lib/pci.c:pci_hdr_write_bar"]}
{"id": "C47", "title": "Capabilities never overlap and are discoverable by walking the list", "statement": "After any sequence of successful capability additions without explicit positions, the capabilities lie inside config space, do not overlap each other or the header, and walking the next pointers from the capability pointer visits exactly the added capabilities in order of addition and terminates.", "quantifier": "every sequence of additions", "why_tests_cant": "all sequences and sizes; pointer chain termination", "anchors": ["lib/pci_caps.c:cap_place", "lib/pci_caps.c:vfu_pci_add_capability", "lib/pci_caps.c:vfu_pci_find_next_capability"]}
{"id": "C48", "title": "Finding capabilities", "statement": "vfu_pci_find_capability returns the first capability with the id in list order, repeated vfu_pci_find_next_capability enumerates all of them, and 0 is returned with ENOENT when there is none.", "quantifier": "every capability list and id", "why_tests_cant": "all lists", "anchors": ["lib/pci_caps.c:vfu_pci_find_next_capability", "lib/pci_caps.c:vfu_pci_find_capability"]}
{"id": "C49", "title": "Function level reset and capability register writes", "statement": "Writes to the power-management, MSI, MSI-X and PCI Express capabilities change only the fields the specification makes writable; initiating a function level reset calls the reset callback exactly once if the device supports it.", "quantifier": "every register contents and written value", "why_tests_cant": "all register values", "anchors": ["lib/pci_caps.c:handle_pmcs_write", "lib/pci_caps.c:cap_write_msi", "lib/pci_caps.c:cap_write_msix", "lib/pci_caps.c:handle_pxdc_write"]}
{"id": "C50", "title": "Wire header round trip", "statement": "Decoding an encoded message header yields the header for every field value, and replies carry message size equal to the bytes sent, the request id and command, and an error number exactly when the error flag is set.", "quantifier": "every header value, payload and errno", "why_tests_cant": "all field values", "anchors": ["lib/tran_sock.c:tran_sock_send_iovec", "include/vfio-user.h:struct vfio_user_header"]}
{"id": "C51", "title": "Message framing survives partial delivery", "statement": "If the bytes of a sequence of valid requests are delivered by the transport in arbitrary fragments, the server handles exactly those requests.", "quantifier": "every fragmentation of the byte stream", "why_tests_cant": "all fragmentations", "anchors": ["lib/tran_sock.c:tran_sock_recv_body", "lib/tran_sock.c:get_msg", "lib/libvfio-user.c:get_request"]}
{"id": "C52", "title": "Setup calls validate and register exactly what was asked", "statement": "vfu_setup_region accepts only known flags with read or write set, an index in range and areas inside the region, and afterwards the region has exactly the given attributes while the others are unchanged; a refused call changes nothing; the device cannot be run before it is realized and realize is idempotent.", "quantifier": "every argument combination and prior configuration", "why_tests_cant": "all argument values", "anchors": ["lib/libvfio-user.c:vfu_setup_region", "lib/libvfio-user.c:vfu_realize_ctx", "lib/libvfio-user.c:vfu_run_ctx", "lib/libvfio-user.c:vfu_create_ioeventfd"]}
{"id": "C53", "title": "A client can never crash the server", "statement": "No sequence of client messages makes the server hit undefined behaviour, an assertion failure or a non-terminating loop.", "quantifier": "every sequence of client messages and descriptors", "why_tests_cant": "all byte sequences", "anchors": ["lib/libvfio-user.c:handle_request", "lib/libvfio-user.c:is_valid_unmap", "lib/libvfio-user.c:handle_device_feature", "lib/dma.c:dirty_page_get_extend", "lib/pci_caps.c:cap_write_msi"]}
{"id": "C54", "title": "Device feature requests", "statement": "A device feature request is accepted only if every operation bit is supported for the feature and migration is configured; PROBE changes nothing and echoes the request; GET of the device state returns the current state.", "quantifier": "every flags word, argsz and payload", "why_tests_cant": "all 32-bit flag words", "anchors": ["lib/libvfio-user.c:handle_device_feature", "lib/libvfio-user.c:device_feature_flags_supported"]}
{"id": "C55", "title": "Device and interrupt information", "statement": "A device information request reports exactly the configured number of regions and interrupt types, and an interrupt information request the number of vectors configured for the requested type; requests that are too short, announce too small a reply, or name a type that does not exist are refused with EINVAL.", "quantifier": "every configuration and every request payload", "why_tests_cant": "all 32-bit index and argsz values and payload lengths", "anchors": ["lib/libvfio-user.c:handle_device_get_info", "lib/irq.c:handle_device_get_irq_info"]}
{"id": "C56", "title": "Destroying a device releases everything it holds", "statement": "vfu_destroy_ctx, called at any moment of any history, succeeds without asking the device to quiesce: the device is told to give up every DMA region and that the connection is lost, every mapping is removed, and every descriptor the library holds is closed exactly once.", "quantifier": "every device configuration, every history of client messages, attachments and device calls before the call", "why_tests_cant": "all histories, including requests that are waiting for the device", "anchors": ["lib/libvfio-user.c:vfu_destroy_ctx", "lib/libvfio-user.c:vfu_reset_ctx", "lib/dma.c:dma_controller_remove_all_regions", "lib/irq.c:irqs_reset"]}
{"id": "C57", "title": "A device served over pipes behaves as one on a socket", "statement": "With VFU_TRANS_PIPE: every reply written to standard output is one message that states its id, command, error, length and payload and that the library's own reader accepts; a write cut short is reported; the requests on standard input are taken off it complete and in order; a reply to vfu_sgl_read or vfu_sgl_write is accepted exactly if it is one; version negotiation and every request have the outcome they have on a socket; without a client vfu_run_ctx fails with ENOTCONN, the loss of the client is handled once, and a second vfu_attach_ctx is refused.", "quantifier": "every message, every stream of bytes on standard input and every way it arrives, every result of the system calls, every history", "why_tests_cant": "all byte streams, fragmentations, short writes and histories", "anchors": ["lib/tran_pipe.c:tran_pipe_send_iovec", "lib/tran_pipe.c:tran_pipe_recv", "lib/tran_pipe.c:tran_pipe_recv_alloc", "lib/tran_pipe.c:tran_pipe_attach", "lib/tran_pipe.c:tran_pipe_get_request_header", "lib/tran_pipe.c:tran_pipe_recv_body", "lib/tran_pipe.c:tran_pipe_reply", "lib/tran_pipe.c:tran_pipe_detach"]}
{"id": "C58", "title": "A device's listening socket lives exactly as long as the device", "statement": "vfu_create_ctx succeeds exactly if a socket can be made, bound to the path and listened on; the path must be shorter than 108 bytes and not exist. If it fails, errno is that of the first step that failed, every descriptor it obtained is closed and the file names are as before. Several devices have different paths; destroying one removes its name, closes every descriptor it holds exactly once and leaves the others reachable. vfu_get_poll_fd always answers an open descriptor: the connection of the attached client, otherwise the listening socket. When all devices are destroyed no descriptor and no name is left. All this as long as nothing else removes the names.", "quantifier": "every history of creating, attaching, losing clients and destroying any number of devices, every result of every system call, every path", "why_tests_cant": "all histories of several devices and all combinations of failing system calls", "anchors": ["lib/tran_sock.c:tran_sock_init", "lib/tran_sock.c:tran_sock_get_poll_fd", "lib/tran_sock.c:tran_sock_attach", "lib/tran_sock.c:tran_sock_detach", "lib/tran_sock.c:tran_sock_fini", "lib/libvfio-user.c:vfu_create_ctx", "lib/libvfio-user.c:vfu_destroy_ctx"]}
{"id": "C59", "title": "Guest memory the device writes is in the next dirty report", "statement": "While dirty page logging is on, a device obtains a translation of a guest range with write access, writes, and marks (or puts) the entries. From then on, as long as the connection stays up, logging is not stopped and no request asks for the region's log or unmaps it (or everything), whatever else happens, the next report for the region in the page size of logging, or the bitmap returned when it is unmapped, says that the page of every byte of the range that lies in the region is dirty.", "quantifier": "every reachable server, every guest range and translation, every page size, every history of other requests, marks, resets and quiesces in between", "why_tests_cant": "all histories between the write and the report, and all ranges and page sizes", "anchors": ["lib/dma.h:dma_sgl_mark_dirty", "lib/dma.h:dma_sgl_put", "lib/dma.h:_dma_mark_dirty", "lib/dma.c:dma_controller_dirty_page_get", "lib/libvfio-user.c:handle_dma_device_feature_get", "lib/libvfio-user.c:handle_dma_unmap"]}
{"id": "C60", "title": "What a client is told about the device is what it was set up with, for the device's whole life", "statement": "A device is created, set up by any sequence of calls (capabilities where the library puts them) and realized, and then serves any clients. At any time later, whatever clients wrote, however often they came and went and whatever resets there were: a client that reads the vendor, device and subsystem ids or the class code from config space gets what the last vfu_pci_set_id and vfu_pci_set_class gave; more generally every register of the header that a client may not write is what it was when the device was realized; a request for information about a region gets the size, access, offset, mappable areas and descriptor it was registered with; a request for information about an interrupt type gets the number of vectors that was set last.", "quantifier": "every sequence of set-up calls, every later history of messages, disconnections, attaches, resets, quiesces and device actions, every register", "why_tests_cant": "all set-up sequences composed with all histories of client requests", "anchors": ["lib/pci.c:vfu_pci_set_id", "lib/pci.c:vfu_pci_set_class", "lib/pci.c:pci_config_space_access", "lib/libvfio-user.c:vfu_setup_region", "lib/libvfio-user.c:vfu_setup_device_nr_irqs", "lib/libvfio-user.c:vfu_realize_ctx", "lib/libvfio-user.c:handle_device_get_region_info", "lib/irq.c:handle_device_get_irq_info"]}
{"id": "C61", "title": "Capabilities placed by the device do not overlap and stay discoverable", "statement": "A device may give the position of a capability. A capability with a position is put exactly there, or refused without any change if it would lie in the header or on top of a capability that is there. After any sequence of successful additions with and without positions, no two capabilities overlap, all lie inside config space and hold their data, and walking each list visits exactly the added capabilities in order of addition.", "quantifier": "every sequence of additions, with any positions, kinds and sizes", "why_tests_cant": "all sequences, positions and sizes; pointer chains in any order of addresses", "anchors": ["lib/pci_caps.c:vfu_pci_add_capability", "lib/pci_caps.c:cap_place", "lib/pci_caps.c:ext_cap_place", "lib/pci_caps.c:cap_find_by_offset", "lib/pci_caps.c:ranges_intersect"]}
{"id": "C62", "title": "Triggering an interrupt signals what the connected client assigned last", "statement": "At any moment of the device's life, vfu_irq_trigger(v) writes to descriptor fd, once and to nothing else, exactly if the last thing that happened to vector v is that the client that is still connected assigned fd to it: since then it has not been assigned again or taken away, and the connection has not been lost, whatever other requests, resets, quiescing and failures there were. In every other case nothing is signalled and the call fails with ENOENT, or EINVAL if no interrupt type has that many vectors. (Requests that take away vectors not starting at 0 aside, see C35.)", "quantifier": "every history of client messages, disconnections, new clients, quiesce completions and device calls; every vector", "why_tests_cant": "depends on the whole history of a long-lived connection, and on the absence of any other way to change a vector", "anchors": ["lib/irq.c:vfu_irq_trigger", "lib/irq.c:handle_device_set_irqs", "lib/irq.c:irqs_reset", "lib/libvfio-user.c:vfu_reset_ctx_quiesced", "lib/libvfio-user.c:vfu_run_ctx"]}
{"id": "C63", "title": "A migration hands the data of one device to another unchanged, and both see a consistent course of events", "statement": "A device that supports migration and has a reset callback, and that keeps track of its own migration state from nothing but its callbacks and its answers to them, is over its whole life only asked for what that state allows: transitions along the documented edges, reading migration data while pre-copying or stopped and copying, writing it while resuming, neither a reset by the client nor new DMA memory while stopped; and a client that asks is told that state. The data a client finds in the successful replies to its reads is, over any history, exactly what the device handed out, in order. The data a device is given is, if every write is acknowledged, exactly the data of the client's write messages, in order. Hence a client that passes on what it reads, cut into pieces of any size, gives the second device exactly what the first handed out. (A device without a reset callback is not told when a lost connection resets its migration state.)", "quantifier": "every realized device, every history of requests (valid or not), disconnections, new clients, quiesce completions and device calls on both sides, every answer of every callback, every way of cutting the data into messages", "why_tests_cant": "needs a relation between two views of the state over unboundedly long histories with arbitrary failures in between, and equality of byte streams for every chunking; tests run a few fixed migrations", "anchors": ["lib/migration.c: migration_set_state, handle_mig_data_read, handle_mig_data_write", "lib/libvfio-user.c: device_reset, vfu_reset_ctx_quiesced, should_exec_command, handle_request", "include/libvfio-user.h: vfu_migration_callbacks_t"]}
{"id": "C64", "title": "A device may use guest memory in its callbacks and between calls", "statement": "In builds with checks (DEBUG), vfu_addr_to_sgl, vfu_sgl_get, vfu_sgl_mark_dirty and vfu_sgl_put abort the process if the device is quiesced and the library is not in one of certain callbacks. A device that uses them only in its callbacks and between calls of vfu_run_ctx and vfu_device_quiesced (also while it is still quiescing) is never aborted, whatever clients do. (False in exactly one case: the callback for configuration space, called for a write that starts at the device control register of the PCI Express capability.)", "quantifier": "every realized device, every history of requests, disconnections, new clients, quiesce completions and device calls, every callback made in it, every one of the four functions", "why_tests_cant": "the check depends on the flags the library has set at each callback of each request, on immediate and on delayed quiescing and on errors; tests exercise a few callbacks", "anchors": ["lib/libvfio-user.c: quiesce_check_allowed, vfu_addr_to_sgl, vfu_sgl_get, vfu_sgl_mark_dirty, vfu_sgl_put, get_request, vfu_run_ctx, vfu_device_quiesced, command_needs_quiesce", "lib/pci_caps.c: access_is_pci_cap_exp", "lib/dma.c: dma_controller_remove_region", "lib/migration.c: migr_trans_to_valid_state"]}
{"id": "C65", "title": "A scatter/gather list stays usable until its memory is unregistered", "statement": "A list the device got from vfu_addr_to_sgl keeps standing for the same guest range, and vfu_sgl_get keeps yielding the same host memory for it, until a region the list refers to is unregistered (dma_unregister callback) -- whatever is mapped, unmapped, logged, reported or reset meanwhile. In particular a device with a quiesce callback can use its lists until it is next quiesced. (False if another region that was registered before those of the list is unregistered: the list then silently stands for other guest memory.)", "quantifier": "every realized device, every list it gets, every history of requests, disconnections, quiescing and device calls between getting the list and using it", "why_tests_cant": "the entries name their region by its position in a table that any later map or unmap may rearrange; tests get and use lists back to back", "anchors": ["lib/dma.h: dma_sg, dma_init_sg, dma_addr_to_sgl, dma_sgl_get", "lib/dma.c: dma_controller_add_region, dma_controller_remove_region, array_remove", "lib/libvfio-user.c: vfu_addr_to_sgl, vfu_sgl_get, handle_dma_unmap", "include/libvfio-user.h: vfu_dma_unregister_cb_t, vfu_sgl_get"]}
{"id": "C66", "title": "A configuration space access is carried out piece by piece, and only the device's part reaches the device", "statement": "A configuration space access that crosses from one header register to the next, or into or out of a capability, behaves as the accesses to its parts made one after the other: the parts before the first refused one take effect, the parts behind it are not looked at, and the request fails with the error of the refused part (EINVAL if it starts inside a header register). Bytes outside the header and all capabilities, and capabilities registered with a callback, are the device's: the configuration space callback is called once with exactly these bytes and its bytes or error are the result, and if it handles only the first of them it is called again for exactly the rest; without a callback a read returns configuration space as it is and a write is EINVAL; configuration space itself is not changed. A write to a read-only capability or to the header of one the library handles is EPERM, changes nothing and calls nothing. (Accesses that start in the middle of a capability and run past its end are excluded: C43 and C44 show they are mishandled.)", "quantifier": "every offset, length and data, every capability layout and configuration space, every callback answer", "why_tests_cant": "all ways a range can be cut by registers, gaps and capabilities, with every prefix of callback results", "anchors": ["lib/pci.c: pci_config_space_access, pci_config_space_next_segment, pci_nonstd_access, pci_hdr_access", "lib/pci_caps.c: pci_cap_access, cap_find_by_offset", "lib/libvfio-user.c: region_access, handle_region_access"]}
{"id": "C67", "title": "Configuration space keeps what was written to it", "statement": "A byte of configuration space keeps its value until a client writes to it: requests of any other kind, writes to other bytes (also those that fail half-way), device resets, disconnections, new clients and migration leave it alone. A client that reads bytes the library keeps (the header, or a capability without a callback) gets what configuration space holds. So after a successful write to registers of such a capability, any later read returns, in the bits a client may change, the bits written, and in the others what was there before.", "quantifier": "every device set up with capabilities at places the library chooses, every history of requests, resets, disconnections, clients, quiescing and device calls, every offset, length and data", "why_tests_cant": "the claim is about every sequence of requests between the write and the read and about every way a write can fail", "anchors": ["lib/pci.c: pci_config_space_access, pci_hdr_access, pci_nonstd_access", "lib/pci_caps.c: pci_cap_access, cap_write_pm, cap_write_px, cap_write_msi, cap_write_msix, cap_write_vendor", "lib/libvfio-user.c: handle_region_access, region_access, vfu_reset_ctx, handle_device_reset"]}
{"id": "C68", "title": "Only what the device marked is reported dirty", "statement": "A page appears in the library's dirty log, and so in the reply to a dirty page report or in the bitmap returned by an unmap, only if the device has marked it (vfu_sgl_mark_dirty or vfu_sgl_put with a writable entry touching the page) since it last was not in the log. In particular the second of two reports for a region names only pages marked after the first, whatever happens in between: maps, unmaps, unmapping and mapping the same range again, starting and stopping logging, lost connections, resets.", "quantifier": "every history of requests, disconnections, quiescing and device calls of a realized device; every region, page and report", "why_tests_cant": "the claim is that no sequence of operations leaves a stale bit behind in any bitmap", "anchors": ["lib/dma.c: dma_controller_dirty_page_get, dma_controller_dirty_page_logging_start, dma_controller_dirty_page_logging_stop, dma_controller_add_region, dirty_page_logging_start_on_region, dirty_page_get_same_pgsize, dirty_page_get_extend, dirty_page_get_combine", "lib/dma.h: _dma_mark_dirty, dma_sgl_mark_dirty", "lib/libvfio-user.c: handle_dma_unmap, handle_device_feature"]}
{"id": "C69", "title": "A request changes only what it is about; queries and refused requests change nothing", "statement": "While the library works on a request it changes only the part of the device's state that the command is about: DMA_MAP and DMA_UNMAP the registered memory and its dirty log, DEVICE_SET_IRQS the assigned interrupts, REGION_WRITE configuration space, DEVICE_RESET the migration state, DEVICE_FEATURE the migration state and the dirty log; every other command, region reads included, changes nothing. A request answered with an error, for whatever reason (malformed, refused by the device, out of memory, refused by the operating system), has changed nothing, except that an unmap that asks for the dirty pages may have cleared part of the log, a write to configuration space may have been carried out up to the piece that failed, and a change of the migration state may have got as far as an intermediate state. What was fixed at setup never changes. Looking up guest memory and raising interrupts change nothing, marking pages changes the log alone.", "quantifier": "every reachable state of a realized device, every request received in it (at once or after the device has quiesced), every answer of callbacks, kernel and allocator", "why_tests_cant": "it is about the absence of side effects on every path of every handler, including each error path", "anchors": ["lib/libvfio-user.c: exec_command, handle_request, handle_dma_map, handle_dma_unmap, handle_device_set_irqs, handle_device_feature, handle_region_access, handle_device_reset, vfu_device_quiesced, vfu_run_ctx", "lib/irq.c: handle_device_set_irqs, irqs_set_data_eventfd", "lib/migration.c: migration_set_state", "lib/dma.c: dma_controller_dirty_page_logging_start, dma_controller_dirty_page_get"]}
{"id": "C70", "title": "What the device stores in configuration space is what clients read", "statement": "A device can store bytes anywhere in its configuration space, at any time, through the pointer vfu_pci_get_config_space gives it, and only storing beyond the end of configuration space is an overrun. The bytes stored are there, no other byte and no other state of the device changes, no message is sent and no callback is made. From then on a client - this one or a later one - that reads any of these bytes in the header or in a capability the library keeps gets what the device stored, whatever happens in between (other requests, failures, resets, lost connections, migration), until a write request that covers them arrives or the device stores there again. The same holds for what the device stores in the header before it is realized, for the bytes that neither realizing nor clients change, unless a later call sets them.", "quantifier": "every device set up through the API, every state it can be in while serving, every offset and data, every later history of messages, failures and device calls, every read among the bytes stored", "why_tests_cant": "it ranges over all later histories; a test can only try some of what may happen between the store and the read", "anchors": ["lib/pci.c: vfu_pci_get_config_space, pci_config_space_access", "include/libvfio-user.h: vfu_pci_get_config_space", "lib/libvfio-user.c: handle_region_access, region_access"]}
{"id": "C71", "title": "What vfu_run_ctx and vfu_device_quiesced return says what happened", "statement": "On a non-blocking device vfu_run_ctx returns 1 only if a valid request that arrived completely was carried out and, if the client wanted a reply and is still there, exactly that request's reply was sent. It returns 0 only if nothing had arrived, or a message was refused: then it was answered with an error (if it asks for a reply) and the device's state is as before, unless the connection was lost. It returns no other number. It fails with EBUSY whenever the device has been asked to quiesce and has not yet called vfu_device_quiesced, and its other errors are exactly these: EINVAL on a device that is not realized, ENOTCONN when there is no client any more, and the errors that the kernel reported on receiving or sending or that the quiesce callback returned. A blocking device's vfu_run_ctx returns no number: it carries on as repeated non-blocking calls would, until one of them fails, and returns that error. vfu_device_quiesced fails with EINVAL, without any effect, when nothing waits for it; after it has returned nothing waits any more, and a nonzero argument drops what waited without carrying it out.", "quantifier": "every device set up through the API, every state it can be in while serving, every message and failure of the kernel, every answer of the device's callbacks, every sequence of messages for a blocking device", "why_tests_cant": "the claim is about all causes of each return value; tests provoke each value by one cause", "anchors": ["include/libvfio-user.h: vfu_run_ctx, vfu_device_quiesced", "lib/libvfio-user.c: vfu_run_ctx, get_request, handle_request, vfu_device_quiesced, vfu_reset_ctx"]}
{"id": "C72", "title": "Using the library from within a callback is safe and has the effect of using it outside", "statement": "A device may mark or release guest memory, look up guest addresses, trigger interrupts and store to configuration space from within the callbacks the library makes while serving a request (quiesce, dma_register, dma_unregister, region access, the accesses and the function level reset that a configuration space access causes, reset, migration transition, migration data and masking of interrupts). What it does in the quiesce callback has the effect of doing it just before the request; what it does in the other callbacks has the effect of doing it, in the same order, right after the request (for the callback that removes a region: with lists into later regions renumbered as the removal renumbers regions). The one exception is a store to configuration space made in a callback of an access to configuration space: the parts of the access that are still to come see it. With that exception the reply to the request does not depend on what is done in the other callbacks, no message is added or lost, a request that calls nothing does nothing on the device's behalf, and such devices never bring the library into a state that devices that keep out of callbacks could not. The same holds of the callbacks made because the connection is lost (quiesce, dma_unregister for each region, reset): what is done in them has the effect of doing it, in this order, just before, except that marks made in the reset callback have none, as the guest's memory is gone by then.", "quantifier": "every state a device can be in while serving, every message, every answer of callbacks and kernel, every list of calls in every callback, every history of such requests", "why_tests_cant": "the interleavings of a device's calls with the steps of a handler are unbounded; tests use devices whose callbacks do nothing or one fixed thing", "anchors": ["lib/libvfio-user.c: handle_dma_map, handle_dma_unmap, region_access, device_reset, vfu_device_quiesced, exec_command", "lib/dma.c: dma_controller_remove_region, dma_sgl_mark_dirty, dma_sgl_put", "lib/migration.c: migr_trans_to_valid_state, handle_mig_data_read, handle_mig_data_write", "lib/irq.c: vfu_irq_trigger", "docs/quiesce.rst", "lib/libvfio-user.c: vfu_reset_ctx, vfu_reset_ctx_quiesced, do_reply, get_request"]}
{"id": "C73", "title": "Pages marked in the callbacks of an unmap are in the bitmap that the unmap returns", "statement": "When a client unmaps a region and asks for its dirty bitmap while pages are logged, the pages that the device marks in the callbacks of that request - the quiesce callback, and the dma_unregister callback, the last moment at which the device holds the region - are set in the bitmap returned.", "quantifier": "every state a device can be in while serving with logging on, every region, page and list marked, every unmap request for the bitmap of the region", "why_tests_cant": "it is about the order of the callback and the collection of the bitmap, for every list of marks; tests mark pages between requests", "anchors": ["lib/libvfio-user.c: handle_dma_unmap, is_quiesce_required", "lib/dma.c: dma_controller_dirty_page_get, dma_controller_remove_region, dma_sgl_mark_dirty"]}
{"id": "C74", "title": "The memory of the dirty page log is neither misused nor lost", "statement": "Whatever a client maps, unmaps, starts to log and stops logging, and whatever the device marks, in whatever order and whichever allocations and mappings fail: the library never frees the log of a region twice, never accesses one that is freed or not allocated, and never lets two regions share one. Memory is held exactly for the regions that are logged, so that it is all given back when logging stops.", "quantifier": "every sequence of map, unmap, logging start, logging stop, mark and report operations on a DMA controller from its creation, every failure of allocation, fstat and mmap", "why_tests_cant": "a leak or double free depends on the order of operations and on the allocation that fails; tests run a few orders without failures", "anchors": ["lib/dma.c: dma_controller_add_region, dirty_page_logging_start_on_region, dma_controller_dirty_page_logging_start, dma_controller_dirty_page_logging_stop, dma_controller_remove_region, dma_controller_remove_all_regions, array_remove", "lib/dma.h: dma_sgl_mark_dirty"]}
{"id": "C75", "title": "Serving requests neither misuses nor leaks memory", "statement": "Whatever clients send and however the device, the kernel and the allocator behave: while the library receives, refuses, holds, handles and answers requests, negotiates with a new client and transfers guest memory, it frees no buffer twice and accesses none that it has freed. Between two calls the only message memory in use is that of the request held until the device has quiesced (at most three buffers), so serving any number of requests leaks nothing.", "quantifier": "every sequence of vfu_run_ctx iterations, vfu_device_quiesced calls, attachments and transfers, with every outcome of every check, allocation, send, receive and callback", "why_tests_cant": "every error path of every handler combined with every failing allocation and every order of quiescing and losing the connection", "anchors": ["lib/libvfio-user.c: alloc_msg, free_msg, get_request_header, get_request, handle_request, do_reply, vfu_run_ctx, vfu_device_quiesced, vfu_dma_transfer, vfu_destroy_ctx", "lib/tran_sock.c: tran_sock_recv_body, tran_sock_reply, tran_sock_recv_alloc", "lib/tran.c: recv_version, send_version, tran_negotiate"]}
{"id": "C76", "title": "Creating, setting up and destroying a device neither misuses nor leaks memory", "statement": "Whatever calls set a device up, in whatever order, however often and whichever of them run out of memory: no buffer is freed twice or accessed after it was freed, and when the context is destroyed every buffer that was allocated for it has been freed exactly once. A creation that fails returns NULL and leaves nothing allocated. Realizing a context again does nothing.", "quantifier": "every outcome of vfu_create_ctx and every sequence of vfu_setup_region, vfu_create_ioeventfd, vfu_pci_init, vfu_realize_ctx, vfu_setup_device_dma and vfu_setup_device_migration_callbacks calls and lost connections, with every outcome of every check and allocation, followed by vfu_destroy_ctx", "why_tests_cant": "every order and repetition of the set-up calls combined with every failing allocation", "anchors": ["lib/libvfio-user.c: vfu_create_ctx, vfu_destroy_ctx, vfu_realize_ctx, vfu_setup_region, copyin_mmap_areas, vfu_create_ioeventfd, free_regions, free_sparse_mmap_areas, vfu_setup_device_dma, vfu_setup_device_migration_callbacks", "lib/pci.c: vfu_pci_init", "lib/migration.c: init_migration", "lib/dma.c: dma_controller_create, dma_controller_destroy", "lib/tran_sock.c: tran_sock_init, tran_sock_fini"]}
{"id": "C77", "title": "A reset request resets the device once, and every reset callback has its reason", "statement": "A client's request to reset the device has the device quiesced if it wants to be, calls its reset callback exactly once with the reason that the client asked, and is answered without data: with success, after which the migration state is running and nothing else differs, or with the device's error, after which nothing at all differs. A device that quiesces later is reset when it has quiesced, with the same effects; one that cannot be quiesced is not reset and the client is told why. Conversely a reset callback is only called for its reason: a client's reset request, a write to configuration space (function level reset), or a lost connection that is then given up.", "quantifier": "every reachable state, every payload and descriptors of the request, every answer of the device to quiesce and reset, immediate or later", "why_tests_cant": "all states, payloads and answers; the converse is about every step of every history", "anchors": ["lib/libvfio-user.c:device_reset", "lib/libvfio-user.c:call_reset_cb", "lib/libvfio-user.c:command_needs_quiesce", "lib/libvfio-user.c:handle_request", "include/libvfio-user.h:vfu_reset_type_t"]}
{"id": "C78", "title": "What requests do depends on neither their message ids nor on whether replies are wanted", "statement": "Take two histories in which clients send the same requests, with the same payloads and descriptors, but with different message ids, different values of the error field and of the flags other than the message type, so that different requests ask for no reply. As long as replies can be sent, every call of vfu_run_ctx and vfu_device_quiesced returns the same in both, the device is called back in the same way and in the same order, the same descriptors are closed and memory unmapped, and the server is left in the same state (but for the header of a request that still waits). If the same requests ask for replies in both, the replies are the same too, but for the message ids that they repeat.", "quantifier": "every server state, every two histories (of any length) related in that way, including histories that end in a crash, asynchronous quiescing, lost connections and calls by the device in between", "why_tests_cant": "a statement about pairs of whole histories: a test compares two runs, not all of them", "anchors": ["lib/libvfio-user.c:get_request", "lib/libvfio-user.c:is_valid_header", "lib/libvfio-user.c:handle_request", "lib/libvfio-user.c:do_reply", "lib/libvfio-user.c:vfu_device_quiesced"]}
{"id": "C79", "title": "Logging dirty pages does not disturb the device", "statement": "Whether dirty pages are being logged changes nothing but the log. Starting and stopping to log, reporting and marking pages and looking up addresses leave everything else about the device as it was, and nothing comes of them but the reply, a request to quiesce and the closing of descriptors sent along. Every other request and call returns the same, calls the device back in the same way, closes the same descriptors, unmaps the same memory and gets the same reply as if nothing was logged. So of any history, leaving out what is about the log leaves the effects of the rest unchanged.", "quantifier": "every state, every request and call of the device, every history without a crash, every page size and set of mapped regions", "why_tests_cant": "compares every history with another one, the same without logging", "anchors": ["lib/dma.c:dma_controller_dirty_page_logging_start", "lib/dma.c:dma_controller_dirty_page_logging_stop", "lib/dma.c:dma_controller_dirty_page_get", "lib/dma.c:dma_controller_add_region", "lib/dma.h:dma_sgl_mark_dirty", "lib/libvfio-user.c:handle_device_feature"]}
