# A Rocq model of libvfio-user

Source: nutanix/libvfio-user, read as text in /repo.  All Coq files are in
`rocq/theories` (logical name `Verif`).

## 1. Trusted base

* Coq 8.16.1's kernel (`coqc`; `vm_compute` is used for closed computations) and the Coq standard library.
* Axioms: none of our own.  What `Print Assumptions` prints for each theorem is in the build log;
  the answer everywhere is "Closed under the global context".  A whole-library context check (`coqchk`) also lists
  the standard library's `Coq.ssr.ssrunder.Under_rel.*` parameters (opaque module fields of the ssreflect `under`
  tactic); no theorem depends on them.
* The hand translation C -> Gallina.  Every definition cites the file and lines it models and states its
  simplifications.  It has not been validated by running the C code (the sandbox cannot build it).

## 2. Modelling conventions

* Unsigned C integers are `N`; 32/64-bit wrap-around is written with explicit `mod` (`w32`, `w64`).
  fds are `Z` (`-1` is "no fd").
* A C function that can fail returns an explicit outcome: a value, an errno, or a *crash* (out-of-bounds access,
  failed `assert`, non-terminating loop).  A crash is never merged with an ordinary error.
* Mutation is explicit: functions return the new state *also when they fail*, so that partial updates are visible.
* Everything observable outside (device callbacks, eventfd writes, fd closes, munmap, bytes sent to the client)
  is recorded as an *event list* in program order.
* The environment (fstat block size, same-file test, mmap, calloc, device callbacks, the client's answers, JSON
  parsing result, read()/recv() results) is an explicit argument over which the theorems quantify.
* Device callbacks do not re-enter the library except in `Reenter.v`, `ReenterCfg.v` and `ReenterLost.v` (C72); logging is dropped; memory allocation
  succeeds unless the allocation result is an explicit oracle; structs are little endian.

## 3. Files

| file | models |
|---|---|
| `Base.v` | common.h, machine arithmetic, outcomes |
| `Types.v` | shared records and the event type |
| `Dma.v` | dma.c/dma.h: region table, address translation, sgl_get |
| `Dirty.v` | dma.c/dma.h: dirty page logging, reporting |
| `Migr.v` | migration.c |
| `Irq.v` | irq.c |
| `Handlers.v` | libvfio-user.c request handlers (region access, info, io_fds, DMA map/unmap, feature) |
| `Server.v` | libvfio-user.c request loop, quiesce protocol, reset, fd ownership |
| `Xfer.v` | vfu_dma_transfer |
| `Tran.v`, `Wire.v`, `PropTranX.v` | tran.c, tran_sock.c: negotiation, framing, header encoding |
| `Pipe.v`, `PropPipeX.v` | tran_pipe.c |
| `Sock.v` | tran_sock.c: init, get_poll_fd, detach, fini; vfu_create_ctx and vfu_destroy_ctx for several devices, with the file names that exist |
| `Pci.v` | pci.c, pci_caps.c |
| `Setup.v` | the setup calls: vfu_create_ctx, vfu_setup_*, vfu_pci_*, vfu_realize_ctx, vfu_destroy_ctx |
| `Debug.v` | the checks of DEBUG builds before the device uses guest memory |
| `*Proofs.v` | lemmas |
| `Spec*.v` | small specifications used in the statements |
| `Prop*.v` | the property theorems, each with `Print Assumptions` and a non-vacuity `Example` |
| `PropConst.v` | the protocol's, PCI's and Linux's numbers behind the model's names |
| `SpecCfg.v`, `CfgPieces.v`, `PropCfg.v` | config space accesses cut into pieces |
| `SpecReg.v`, `CfgFrame.v`, `CfgHist.v`, `PropReg.v` | config space between writes |
| `SpecSpur.v`, `SpurProofs.v`, `PropSpur.v` | where the bits of a dirty report come from |
| `SpecOnly.v`, `OnlyProofs.v`, `PropOnly.v` | what a request leaves alone |
| `PropPoke.v` | the device's own stores to configuration space |
| `PropRun.v` | what vfu_run_ctx and vfu_device_quiesced return (C71) |
| `Reenter.v`, `SpecReenter.v`, `ReenterProofs.v`, `ReenterReach.v`, `PropReenter.v` | the request handlers with a device that calls the library from within the callbacks (C72, C73) |
| `ReenterCfg.v`, `ReenterCfgProofs.v`, `PropReenterCfg.v` | the same for the callbacks made for configuration space (C72) |
| `ReenterLost.v`, `ReenterLostProofs.v`, `PropReenterLost.v` | the same for the callbacks made because the connection is lost (C72) |
| `Heap.v`, `SpecHeap.v`, `HeapProofs.v`, `PropHeap.v`, `PropTouch.v` | allocation, freeing and use of the buffers of the dirty page log (C74) |
| `Mem.v`, `SpecMem.v`, `MemProofs.v`, `PropMem.v` | allocation, freeing and use of the memory of messages (C75); branch conditions other than pointers are arbitrary choices |
| `Life.v`, `SpecLife.v`, `LifeProofs.v`, `PropLife.v` | allocation, freeing and use of the memory of a context from `vfu_create_ctx` to `vfu_destroy_ctx` (C76); branch conditions other than pointers are arbitrary choices |
| `DmaSg.v` | `vfu_sg_is_mappable` (C10_mappable) |

## 4. Properties: what is modelled, how it is proved

* C01 DMA regions disjoint — `Dma.v` add/remove; invariant by induction over operation lists, stated pointwise on guest addresses. `ServerDma.v` shows that every history of the server is such a list, so that C01, C02, C05, C06 hold of histories of client messages; `PropDmaMsg.v` also states map, unmap and report as single requests, byte for byte.
* C02 limits / failed map changes nothing — invariant + case analysis of every failure point of add_region.
* C03 idempotent map — from the C01 invariant (disjointness makes the exact match the only possible match).
* C04 exact unmap — induction over the table.
* C05 callbacks mirror the table — invariant relating the event history with the table, by induction over histories.
* C06 sgl tiling — induction over the passes of the split loop, for every hint; specification is "concatenation of the intervals = requested interval".
* C07 sgl errors — both directions against the pointwise "every byte is mapped" specification, and the retry law.
* C08 write protection — induction over the produced list.
* C09 hint independence — fast path = slow path under the C01 invariant.
* C10/C11 sgl_get window — arithmetic of dma_map_region; C11 is expected to be false (mmap length ignores the offset rounding): refutation with a witness plus the guarded version. `C11_exact` (`PropMapX.v`): for every offset, when a region fits its mapping and how many of its bytes lie past it. `C10_mappable`: `vfu_sg_is_mappable` says beforehand whether `vfu_sgl_get` will succeed for an entry of a translation.
* C12 mark dirty — bit-level specification `bit k set iff page k intersects`, by induction over the byte loop.
* C13 report same page size — per-bit, plus history theorem.
* C14 concurrency — small-step interleaving semantics; invariant over all schedules.
* C15/C16 extend/combine — per-bit specification below the 8-bit index threshold; exact outcome above it (finer reports leave the buffer or never end, coarser ones are taken modulo 256).
* C17 logging life cycle — invariant over histories. `PropLogging.v`: exactly when logging starts and with which error it does not (a region shorter than the page asked for prevents it), what a client's requests do, and exactly when a new range is accepted (`C02_map_exact`).
* C18 bitmap size — arithmetic.
* C19/C20 region access — for every payload (every byte string is too short or decodes to fields); spec of allowed access on mathematical integers; the callbacks of config space accesses are shown to be parts of the access by induction over the access loop.
* C21 header validation — case analysis at the level of the whole server step; `PropServerX.v`: what a message gets whose payload does not arrive whole.
* C22 one reply per request — invariant over server traces (requests received vs replies sent + pending); `PropExact.v` accounts for every request of every history: answered, held, or dropped by a step that failed.
* C23 quiesce failure — false for an asynchronous failure (no reply is sent): refutation; proved for the synchronous one.
* C24 quiesce discipline — trace automaton over the event list of every step of every reachable state. `C24_exact` (`PropQuiesceX.v`) is unconditional: the only callback ever made unquiesced is that of a function level reset by a write that covers the device control register without starting there.
* C25 EBUSY while pending — direct + induction over calls.
* C26 stopped filter — over all command codes.
* C27 fd accounting — multiset invariant: received = owned + closed; refutations for double close on mmap failure and leak on repeated map. `C27_exact` (`PropFdsX.v`) drops the condition: the balance of every step, with the two exceptions; `C27_history_exact` (`PropDestroyX.v`) the balance of every history.
* C28/C29 reset / ENOTCONN — from every state; ENOTCONN after a failed reply expected false. `C29_exact` (`PropConnX.v`): what any non-blocking call reports.
* C30/C31 migration graph — finite state check lifted to all request/callback histories.
* C32 migration data guards; exactly how long the reply to a read is (`C32_fits_exact`).
* C33–C37 interrupts — vector table as list of fds; validation on unbounded integers versus the saturating 32-bit code; disable expected false for start>0.
* C38/C39 info replies — the whole reply is given as a function of the region; descriptors by position in the list sent along, by induction over the ioeventfds.
* C40/C41 version negotiation — the JSON parser is an argument of the model, everything read from its result is modelled; (int) truncation included. `C40_exact` says exactly which clients are accepted, `C41_announced_exact` which size is used for each announced one.
* C42 DMA transfer — induction over chunks against a client memory function.
* C43–C49 PCI config space — config space as byte list; capability list; per-register field specifications.
* C50 wire — encode/decode.
* C51 framing — stream of fragments; expected false for bodies (recv without MSG_WAITALL), true for unfragmented delivery. `C51_header_fragment_refuted` and `C51_body_fragment` (`PropWireX.v`) say for every request and every cut what happens.
* C52 setup calls — each call as a function of the device; sequences of calls; the configuration space after realizing, bit by bit; devices that were set up and realized are the initial states of the history theorems.
* C56 destroying — the events of vfu_destroy_ctx from every reachable state, with the descriptor accounting of C27. `PropDestroyX.v`: what it leaves open is exactly the waiting request's descriptors, and the balance of a whole life.
* C57 pipes — `Pipe.v`: framing as for C50 and C51; a simulation showing that every history on pipes is one on a socket whose client comes back at once, so that all history theorems carry over; negotiation related to that on a socket; what the caller of a transfer is told in every case (`C57_transfer_exact`); refutations of the rest.
* C58 listening socket — `Sock.v`: vfu_create_ctx by cases on the system calls; over histories of several devices, an invariant counting descriptors (using C40's for one connection) and one on the set of names. The empty path (an abstract socket) is not modelled.
* C59 written memory is reported — no new model: `SpecReport.v` says which requests take a region's log away; `ReportProofs.v` proves that every operation, request and step other than those keeps the mark of a page, and that marking a translation marks the page of each byte; composed with C13's requests.
* C60 the device that was set up — no new model: `SpecIdent.v` composes set-up calls (C52), realizing and a server history (`life`); `IdentProofs.v` proves that no step writes a register of the header that clients may not write (an invariant carrying the capability lists), and that set-up calls keep what others set; composed with C38, C52, C55's requests.
* C61 capabilities with positions — `cap_place` and `ext_cap_place` of `Pci.v`, with `size_t` sums that wrap; `SpecPlace.v` adds capabilities at given positions; `CapsPlace.v` generalises C47's invariant from ordered to pairwise disjoint capabilities; `C61_accepted` (`PropPlaceX.v`) gives the exact answer to a request with a position.
* C62 interrupts over histories — `SpecBind.v` says from the bytes of the requests which vector is assigned, taken away or left alone in a step; `BindProofs.v` shows step by step that the table changes so and in no other way, then induction over the history in both directions.
* C63 migration end to end — `SpecFlow.v` gives the device's own bookkeeping of its state (`device_view`) and the byte streams handed out, obtained, supplied and given; `FlowProofs.v` shows for every step that the library's state and the device's agree afterwards and that the streams agree, then induction. A PCI function level reset (config space) calls the reset callback but leaves the migration state, and `device_view` says so.
* C64 guest memory in callbacks (DEBUG) — `Debug.v`: the four functions' check and, for each callback, whether the in-callback flag is set; `step_tagged` is the server's step with the value of the quiesced flag at each event, proved to have exactly the server's events (`C64_events`). The exact condition for an abort is proved for every reachable state, by cases on requests, with the invariant that a waiting request is one that needs the device quiesced.
* C65 lists over time — `SglProofs.v`: along any history the descriptions of the first k regions of the table stay the same unless one of them is unregistered; a translation is the unique maximal chain of pieces of disjoint regions, so equal descriptions give the same list; `sgl_get` only looks at the descriptions of the list's regions. `C65_after_unregister` computes the meaning of an entry after a removal.
* C66 pieces — `SpecCfg.v` says where pieces meet (`boundary`) and what two accesses one after the other are (`then_write`, `then_read`, callbacks counted on); `CfgPieces.v` proves by induction on the loop that an access splits at any boundary, from the facts that no boundary lies inside a capability, a register or a gap and that the next capability found does not depend on what follows a boundary. `PropCfg.v` adds what each single piece does and the exact reply of the request. `PropPast.v` says exactly what becomes of accesses that start inside a capability and run past its end (the cases refuted in C43, C44 and C53).
* C67 config space between writes — `SpecReg.v` says when a request covers a byte (`covers`, `writes_over`, `waiting_over`: a write to device control may wait for the device to quiesce); `CfgFrame.v` proves by induction on the loop that a config space write changes only bytes it covers, for any layout and outcome; `CfgHist.v` carries a byte's value along a history by the step cases of `ServerProofs.v`. `C67_register` composes this with C49 and C66 into what a client sees.
* C68 no stray bits — no new model: `SpecSpur.v` says what it means that the log names a page (`names`) and that a marking marks it (`marks`); `SpurProofs.v` is the counterpart of `ReportProofs.v`: no operation but marking sets a bit of any bitmap (reports only clear, new bitmaps are blank, stopping and unmapping drop them), lifted over messages, steps and histories; `PropSpur.v` combines it with C13's exact description of the replies.
* C69 only what it is about — no new model: `SpecOnly.v` divides the state in four parts and says per command which it may change (`about`) and which request a step works on (`working_on`); `OnlyProofs.v` goes through every path of every handler; `PropOnly.v` lifts it to the steps of the server.
* C70 device stores — `dev_poke` in `Server.v` and the step `SPoke` of a history: the device stores through the pointer that vfu_pci_get_config_space returns. All theorems about histories now range over such stores as well; those about configuration space say what they need of them (`sends_bytes`: bytes, and not to the read-only part of the header; `writes_over`: a store counts as a write; `harmless_step`: within configuration space). `PropPoke.v` combines this with C67. The same stores while the device is set up are the call `CPoke` of `Setup.v` (`C52_poke`, `C70_set_up`); callers who keep their capabilities in order store in the header only (`header_store`).
* C71 return values — `PropRun.v`: by `step_cases` (the case analysis of one step of a server, `ServerProofs.v`) for one call, by induction over the messages for a blocking device.
* C72 calls from within callbacks — `Reenter.v` restates the handlers with the calls the device makes (`act`) performed at the point of each callback, on the state the library has there (after the removal scan has reached the region, between two migration transitions, before the new state is stored). `SpecReenter.v` says what "before" and "after" mean. `ReenterProofs.v` shows, handler by handler, that the result is the request of `Server.v` followed by the calls, descriptors renumbered by a removal; `ReenterReach.v` that every state so reached is `reachable`. `ReenterLost.v` adds the callbacks made because the connection is lost; `C72_hangup` moves what is done in them before the call, `C72_parting_reachable` covers every way of losing the connection. `ReenterCfg.v` adds the callbacks an access to configuration space makes, one at the end of each part of the access; the proof goes part by part, the calls of a part moved behind the stores of the later ones (`acts_pci`), which needs that the device does not store there itself (`no_pokes`; `C72_stores_seen` shows why). Reachability needs no such condition: what a part stores is a store the device could have made.
* C73 marks in the callbacks of an unmap — partial: proved for the quiesce callback from C72 and the unmap theorem of C13; refuted for dma_unregister by a witness.
* C74 memory of the log — partial: every call of calloc and free and every access is an event; an invariant relates the pointers in the region table to the buffers allocated (no double free, no use after free, no sharing, exact count). That all memory is given back is refuted for regions removed while logged.
* C75 memory of requests — partial: each function as the calls of malloc and free and the accesses it makes, for every choice at every branch; an invariant says which buffers are allocated between calls. Refuted for a negotiation that cannot make its socket pair, and for destroying a context that holds a request.
* C76 memory of a context — partial: each set-up call, the lost connection and the destruction as calls of malloc and free and accesses; the buffers in use are, as a multiset, those of the context and those it was made to forget, whose number a small specification counts. Refuted for things set up twice, for areas without memory after an ioeventfd, and for a creation that runs out of memory.
* C47 accepted — `C47_accepted` (`PropCapsExact.v`): with C47's invariant the walks of `cap_place` and `ext_cap_place` are computed, so the answer to the next request (its offset or its error) is a function of the capabilities added so far.
* C77 reset — `device_reset` of `Handlers.v` inside `sv_step`; `C77_request` is the whole step, `C77_request_later` follows with C25, `C77_reason` by cases over all steps (`PropReset.v`).
* C78 anonymity of requests — two runs of the server of `Server.v` related by a relation on headers; simulation by cases over the steps and induction over the history (`PropAnon.v`, vocabulary at its head).
* C79 logging — every step commutes with forgetting the log (`unlogged`), by cases over the handlers; steps about the log leave the rest alone; histories by induction (`PropLogFree.v`, vocabulary at its head). Partial: see section 5; the maps left out are refused and change nothing (`PropLogMap.v`).
* C53 client cannot crash — safety theorem over all histories of harmless messages (`SpecSafe.v`), by an invariant, for sound devices; a theorem that devices set up in the plain way are sound; refutations listing the client messages that do crash. `PropSafeX.v`: of the unmap and feature requests that ask for no report, in any state reached without a crash, exactly those that overrun (`SpecSafe.v`) crash. `PropSafeW.v`: on every device, writes to configuration space that start with a part of the command, a base address or the expansion ROM register, or in an MSI or MSI-X capability and run past its end, crash.
* C54 device feature — bit-level specification of the supported operations.
* C55 device and interrupt information.

## 5. Disagreements between the code and the properties

Each entry is a `*_refuted` theorem about the faithful model, with a concrete witness.

* `C01_wrapping_ranges_refuted` — a map request whose range passes 2^64 is accepted and can overlap others.
* `C06_wrapping_range_refuted` — the hint fast path of address translation accepts a range that wraps around.
* `C11_unaligned_offset_refuted` — the mmap length ignores the rounding down of the file offset, so the last bytes of a region are outside the mapping.
* `C12_region_without_file_refuted` — marking dirty in a region without a file while logging fails an assertion.
* `C15_*_refuted`, `C16_large_bitmap_refuted` — the page-size conversion loops use 8-bit indices: they write the wrong bits, leave the buffer or do not end.
* `C18_huge_range_refuted` — the bitmap size computation wraps for ranges within 64 pages of 2^64.
* `C30_num_states_refuted` — requesting state 8 reads past the transition table.
* `C32_reply_fits_argsz_refuted` — a migration data read reply may be longer than the client's `argsz`.
* `C35_disable_refuted` — disabling vectors with start > 0 skips some or all of them.
* `C43_straddling_refuted`, `C44_straddling_refuted` — a config space access that starts in the middle of a capability is not cut at its end: it reads or writes over the next capability, read-only or device-handled ones included.
* `C44_unordered_refuted` — the same when a capability was placed explicitly at a lower address than an earlier one.
* `C45_bar_mask_refuted` — a BAR write keeps the mask of the region size but not the BAR's type bits.
* `C49_pm_refuted` — the whole power management control/status register is taken from the client.
* `C47_past_256_refuted` — standard capabilities placed past offset 256 get a truncated pointer and overwrite extended capabilities.
* `C47_short_vendor_refuted` — a vendor capability claiming less than its header is accepted and then overwritten.
* `C48_ext_last_refuted` — looking past the last extended capability goes on at offset 0 and can loop. `C48_ext_last_exact` (`PropFindX.v`) says what it answers.

* `C23_refuted` — when the device reports that an asynchronous quiesce failed, the request is dropped without any reply.
* `C24_second_exp_refuted`, `C24_straddling_write_refuted` — a function level reset through the device control register of a second PCI Express capability, or by a write that starts in front of that register, reaches the device without quiescing it.
* `C27_repeated_map_leaks_refuted` — the descriptor of a DMA map request that repeats an existing mapping is neither kept nor closed.
* `C27_mmap_failure_closes_twice_refuted` — when mmap fails the descriptor is closed by dma_controller_add_region and again by handle_dma_map.
* `C29_reply_refuted`, `C29_body_refuted` — a connection loss noticed while sending a reply or receiving a body is not reported as ENOTCONN.
* `C40_huge_limit_accepted_refuted` — the client's descriptor limit is truncated to an int before it is checked.
* `C41_truncated_refuted` — the client's maximum transfer size is truncated to an int: 4 GiB becomes 0, 3 GiB becomes almost 2^64.
* `C41_zero_never_ends_refuted` — with the maximum 0 `vfu_sgl_read` and `vfu_sgl_write` send empty requests for ever.
* `C41_large_read_refuted` — with a maximum above 1 MiB a read that uses it fails with EINVAL: the reply is longer than the server accepts.
* `C42_write_unconfirmed_refuted` — a reply to a DMA write without a body is compared with an uninitialised struct.
* `C51_header_fragment_refuted`, `C51_body_fragment_refuted` — a header that arrives in pieces drops the connection; when a payload arrives in pieces its tail is executed as a message.
* `C52_area_outside_refuted`, `C52_size_truncated_refuted`, `C52_stale_areas_refuted` — vfu_setup_region accepts an area that wraps around 2^64; stores only 32 bits of the size; keeps the areas of an earlier registration, also when there is no descriptor any more.
* `C52_refused_region_refuted`, `C52_refused_migration_refuted` — registering a region that fails for lack of memory wipes it (with descriptor 0); incomplete migration callbacks take away the ones there were.
* `C52_small_config_refuted`, `C52_config_size_refuted` — a configuration space region below 64 bytes makes vfu_realize_ctx write outside; its size can differ from the memory allocated by vfu_pci_init, and clients then read outside.
* `C52_late_vectors_refuted` — vfu_setup_device_nr_irqs after vfu_realize_ctx raises the limit clients are checked against but not the table.
* `C53_short_unmap_refuted`, `C53_short_feature_refuted` — a DMA unmap request is validated and a device feature request is executed without checking that the payload is long enough: what lies behind it is read.
* `C53_state_8_refuted` — a request for migration state 8 as a first message reads past the transition table (C30).
* `C53_logging_without_dma_refuted` — starting or stopping dirty page logging on a device without DMA fails an assertion.
* `C53_partial_register_refuted` — a one-byte write to the command register (and short writes to the others) reads past the data.
* `C53_past_capability_refuted` — a write that starts in an MSI or MSI-X capability and runs past its end overflows a copy of the capability on the stack.
* `C53_reports_refuted` — a dirty page report in smaller pages than logged writes past the bitmap or never ends; a report of a range that wraps around reads past the log.
* `C56_pending_refuted` — the descriptors of a request that waits for the device to quiesce are not closed by vfu_destroy_ctx.
* `C57_reply_size_refuted`, `C57_client_reads_reply_refuted` — the pipe transport never fills in the length of a message: the header of every reply and request says 0, and the library's own reader refuses every successful reply.
* `C57_short_write_refuted` — for the same reason a short write to the pipe is never noticed.
* `C57_reply_fragment_refuted`, `C57_request_fragment_refuted` — a payload that arrives in pieces is not waited for; its tail is taken for a message.
* `C57_no_client_refuted`, `C57_lost_again_refuted`, `C57_attach_twice_refuted` — before vfu_attach_ctx, vfu_run_ctx fails with EBADF; after the client is gone each vfu_run_ctx resets the device again; a second vfu_attach_ctx is accepted.
* `C58_name_stolen_refuted` — outside C58's assumption: if something else removes a device's name and a second device is created at the path, destroying the first removes the second's name.
* `C59_report_of_a_part_refuted` — outside C59's conditions: a report for the first page of a region is accepted (only the start is compared with the region), and, bitmaps being rounded up to 8 bytes, it clears the log of up to 64 pages; the report for the whole region that follows says they are clean.
* `C59_refused_unmap_refuted` — likewise: DMA_UNMAP with the dirty bitmap for a region's address but a smaller size clears the log first and is then refused (ENOENT), with no bitmap in the reply.
* `C61_chosen_refuted` — without a position a capability is put behind the one added last, whatever is there: after a position below an earlier capability it overwrites that.
* `C61_adjacent_refuted` — a capability that would end exactly where another begins is refused (`ranges_intersect` compares with >=).
* `C61_assertions_refuted` — an unaligned position of an extended capability, and a position whose end wraps around 2^64, fail an assertion.
* `C63_no_reset_callback_refuted` — a device without a reset callback is not told that a lost connection puts its migration state back to running; the next client can then have it asked for a transition that is not legal from where it is (resuming to pre-copy).
* `C64_callback_aborts_refuted` — DEBUG builds: a device that handles its PCI Express capability itself (callback flag) and uses guest memory in its configuration space callback is aborted by a client's write to the device control register: the library has it quiesced first and does not mark the callback.
* `C65_other_region_unregistered_refuted` — three regions A, B, C, registered in this order; the device holds a list into B; the client unmaps A. B stays registered and the device is told nothing about it, but the list, which stores B's position in the table, now stands for C: `vfu_sgl_get` returns C's memory, and a device that writes through it corrupts C. The documentation only asks devices to release references to the region that is unregistered.
* `C69_half_write_refuted`, `C69_half_migration_refuted` — two of the exceptions in C69 (the third is `C59_refused_unmap_refuted`): a write to configuration space whose second piece the device refuses is answered with an error although the first piece is stored; a change of the migration state that the device refuses half way is answered with an error and leaves the device in the intermediate state.
* `C73_marked_when_unregistering_refuted` — a page that the device marks in its dma_unregister callback is missing from the dirty bitmap that the same DMA_UNMAP returns: the bitmap is collected before the callback.
* `C74_leak_refuted` — a region that is removed while logging is on (unmapped, or given up because the client went away) takes the pointer to its log with it: `dma_controller_remove_region` and `dma_controller_remove_all_regions` never free `dirty_bitmap`, and stopping to log only frees the logs of regions still in the table. A client that maps and unmaps n times while logging makes the server lose n buffers. `C74_held` says exactly how much is lost.
* `C79_small_map_refuted` — while dirty pages are logged, `dma_controller_add_region` sizes a bitmap for the new region and fails with EINVAL if the region is smaller than the logged page (`dma.c:258-273`, `common.h:103-115`): a map that succeeds otherwise is refused.
* `C75_no_pair_refuted` — `tran_negotiate` returns without freeing the client's version message when `socketpair` fails (`tran.c:472-477`): each such attempt leaks the message. `C75_destroy_refuted` — `vfu_destroy_ctx` frees nothing of a request that is held until the device has quiesced.
* `C76_leak_refuted` — `vfu_setup_device_dma`, `vfu_setup_device_migration_callbacks` and `vfu_setup_region` with areas overwrite the pointer of an earlier call, which is never freed (a refused second set of migration callbacks even leaves the device without any, `libvfio-user.c:2191`); a failed `malloc` in `vfu_setup_region` clears the region and with it the list of its ioeventfds (2104). `C76_create_refuted` — if `strdup` or the `calloc` of the regions fails, `vfu_create_ctx` destroys the context and `free_regions`/`free_sparse_mmap_areas` read `reg_info`, which is NULL.

## 6. Not modelled

Every function of `lib/*.c` is modelled except the following.

* Logging: vfu_log, vfu_setup_log (`libvfio-user.c:62-83, 1986-1999`), the warning of `tran_sock.c:612-625`.
* JSON: json-c's parser and printer, and the helpers that put values into an object (`tran.c:301-345`); the model starts
  from, and ends with, the values in the objects. An out-of-memory failure inside json-c is not modelled.
* Memory allocation failure in general (the cases where it is an oracle are marked in the model), and freeing memory
  (`libvfio-user.c:1788-1798`) other than the dirty page log (C74), messages (C75) and the context (C76); reads of other freed memory cannot be seen in the model.
* Trivial accessors: vfu_get_private, dma_sg_size (`dma.c:46-50`), migration_get_pgsize.
* Concurrency is modelled where the library supports it: marking pages dirty while a report is made (C14) and the
  per-thread region hint (C09). Other calls from several threads at once are not.
* Callbacks that call back into the library, except: the calls and callbacks of C72 (`Reenter.v`, `ReenterCfg.v`, `ReenterLost.v`; not calls to
  vfu_device_quiesced, vfu_run_ctx or the setup functions), the transfers of C42, and C64, which says in which callbacks the DMA functions
  may be called.
* DEBUG builds differ from release builds only in the checks of C64 and in asserts; asserts are modelled as crashes.
* Only the UNIX socket and the pipe transport exist; descriptors passed with messages are numbers, with the kernel's part
  (SCM_RIGHTS) as an assumption. Big-endian hosts are not modelled.
* The samples, the python bindings, the tests and the build files.
