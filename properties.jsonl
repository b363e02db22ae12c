{"id": "C01", "title": "Exclusive ownership of protected memory", "statement": "In every reachable state, if the stage-2 tables of realm R1 translate protected IPA x1 to physical granule p and those of realm R2 translate protected IPA x2 to p, then R1 = R2 and x1 = x2: no physical granule is ever shared between two realms or aliased inside one.", "quantifier": "every finite history of RMI commands, REC entries, realm exits and RSI calls, with arbitrary 64-bit arguments, from boot; all pairs of realms and IPAs", "why_tests_cant": "Aliasing depends on the whole history of creates, folds, unfolds and destroys; a test exercises a few histories.", "anchors": ["runtime/rmi/rtt.c:data_create", "runtime/rmi/rtt.c:smc_rtt_fold", "runtime/rmi/rtt.c:smc_rtt_create", "runtime/rmi/rtt.c:smc_data_destroy", "lib/s2tt/src/s2tt.c"]}
{"id": "C02", "title": "Protected translations only reach DATA granules", "statement": "In every reachable state, whenever the stage-2 tables of a realm translate an IPA with a Realm-PAS (non-NS) output address, that address lies in a granule whose state is DATA. No realm can reach an RD, REC, RTT, delegated or NS granule through a protected mapping.", "quantifier": "every finite history of RMI commands, REC entries, realm exits and RSI calls, with arbitrary 64-bit arguments, from boot; all realms and IPAs", "why_tests_cant": "Requires an invariant over all histories relating table entries with granule states.", "anchors": ["lib/s2tt/src/s2tt.c", "runtime/rmi/rtt.c", "lib/granule/include/granule.h"]}
{"id": "C03", "title": "Non-secure mappings only outside the protected address range", "statement": "In every reachable state, a valid stage-2 entry with NS=1 only translates IPAs in the upper (unprotected) half of the realm's IPA space and is execute-never, and a valid entry with NS=0 only translates IPAs in the lower (protected) half.", "quantifier": "every finite history of RMI commands, REC entries, realm exits and RSI calls, with arbitrary 64-bit arguments, from boot; all realms, IPAs and host-supplied descriptors", "why_tests_cant": "The descriptor is host-supplied (2^64 values) and the position depends on the table history.", "anchors": ["runtime/rmi/rtt.c:map_unmap_ns", "lib/s2tt/src/s2tt.c:host_ns_s2tte_is_valid", "lib/s2tt/src/s2tt.c:s2tte_create_assigned_ns"]}
{"id": "C04", "title": "Delegated granules are always scrubbed", "statement": "In every reachable state every granule in DELEGATED state is filled with zeros, so undelegating it never exposes realm data, register state, page tables or measurement state to the host.", "quantifier": "every finite history of RMI commands, REC entries, realm exits and RSI calls, with arbitrary 64-bit arguments, from boot", "why_tests_cant": "A single forgotten scrub on one path (fold, destroy, rec destroy, failed data create) breaks it; must hold for all paths.", "anchors": ["runtime/rmi/granule.c:smc_granule_delegate", "runtime/rmi/rtt.c:smc_data_destroy", "runtime/rmi/rtt.c:smc_rtt_destroy", "runtime/rmi/rec.c:smc_rec_destroy", "runtime/rmi/realm.c:smc_realm_destroy"]}
{"id": "C05", "title": "Granule life cycle", "statement": "A command changes the state of a granule only along the edges NS<->DELEGATED and DELEGATED<->{RD, REC, REC_AUX, RTT, DATA}; in particular a granule that is in use is never handed back to the host in one step, and only GRANULE_UNDELEGATE makes a granule accessible to the host.", "quantifier": "every finite history of RMI commands, REC entries, realm exits and RSI calls, with arbitrary 64-bit arguments, from boot; every granule", "why_tests_cant": "Universal over all commands and states.", "anchors": ["lib/granule/include/granule_types.h", "runtime/rmi/granule.c", "runtime/rmi/rtt.c", "runtime/rmi/rec.c", "runtime/rmi/realm.c"]}
{"id": "C06", "title": "Reference counts are exact", "statement": "In every reachable state the reference count of an RTT equals the number of its entries that are tables or hold protected memory, that of an RD equals the number of its RECs, that of a REC is 1 exactly while it is being entered, and all other granules have 0; no count ever overflows its 10-bit field.", "quantifier": "every finite history of RMI commands, REC entries, realm exits and RSI calls, with arbitrary 64-bit arguments, from boot", "why_tests_cant": "Counts are maintained incrementally over unbounded histories; leaks or underflows only show on rare interleavings.", "anchors": ["lib/granule/include/granule.h:granule_refcount_inc", "runtime/rmi/rtt.c", "runtime/rmi/rec.c:smc_rec_create", "runtime/rmi/run.c:smc_rec_enter"]}
{"id": "C07", "title": "RTT trees are well formed and disjoint", "statement": "In every reachable state each granule in RTT state belongs to exactly one realm, at exactly one level and IPA range, and is referenced from exactly one place (a table entry one level up, or the realm's root).", "quantifier": "every finite history of RMI commands, REC entries, realm exits and RSI calls, with arbitrary 64-bit arguments, from boot", "why_tests_cant": "Structural invariant over all histories.", "anchors": ["runtime/rmi/rtt.c:smc_rtt_create", "runtime/rmi/rtt.c:smc_rtt_fold", "runtime/rmi/rtt.c:smc_rtt_destroy", "runtime/rmi/realm.c:smc_realm_create"]}
{"id": "C08", "title": "Nothing in use is ever freed", "statement": "RTT_DESTROY, REC_DESTROY and REALM_DESTROY fail while the object is in use: a realm with a REC or with any RTT below its root cannot be destroyed, a REC that is executing cannot be destroyed, an RTT with live protected entries or child tables cannot be destroyed.", "quantifier": "every finite history of RMI commands, REC entries, realm exits and RSI calls, with arbitrary 64-bit arguments, from boot", "why_tests_cant": "Use-after-free depends on arbitrary interleavings of commands.", "anchors": ["runtime/rmi/realm.c:smc_realm_destroy", "runtime/rmi/rec.c:smc_rec_destroy", "runtime/rmi/rtt.c:smc_rtt_destroy"]}
{"id": "C09", "title": "Failing commands have no effect", "statement": "Whenever an RMI command other than REC_ENTER returns an error code, every granule state, reference count, memory content, realm, REC, VMID and measurement is exactly what it was before the call.", "quantifier": "all states and all 64-bit arguments of every RMI command", "why_tests_cant": "Error paths undo partial work (VMID reservation, aux granules, copied data); each must be undone from every state.", "anchors": ["runtime/rmi/realm.c:smc_realm_create", "runtime/rmi/rec.c:smc_rec_create", "runtime/rmi/rtt.c:data_create"]}
{"id": "C10", "title": "The host cannot change RIPAS of an active realm on its own", "statement": "For a realm that is not NEW, no sequence of host commands changes the RIPAS the realm observes at a protected IPA, except (a) to DESTROYED, or (b) inside the not-yet-processed part of a RIPAS change the realm itself requested with RSI_IPA_STATE_SET, to the requested value and, for DESTROYED pages, only if the realm allowed it.", "quantifier": "every finite history of RMI commands, REC entries, realm exits and RSI calls, with arbitrary 64-bit arguments, from boot; every protected IPA", "why_tests_cant": "RIPAS is represented at any table level and moved by fold/unfold/destroy; must hold for all histories.", "anchors": ["runtime/rmi/rtt.c:smc_rtt_set_ripas", "runtime/rmi/rtt.c:update_ripas", "runtime/rmi/rtt.c:smc_rtt_fold", "runtime/rmi/rtt.c:smc_data_destroy"]}
{"id": "C11", "title": "The host cannot replace or modify memory of an active realm", "statement": "For a realm that is not NEW, no RMI command changes the content of memory the realm can access at a protected IPA; the only way the host can withdraw a page makes the IPA DESTROYED, and fresh pages that appear at RAM IPAs are zero-filled.", "quantifier": "every finite history of RMI commands, REC entries, realm exits and RSI calls, with arbitrary 64-bit arguments, from boot", "why_tests_cant": "Integrity must hold against every host command sequence.", "anchors": ["runtime/rmi/rtt.c:data_create", "runtime/rmi/rtt.c:smc_data_destroy", "runtime/rmi/rtt.c:smc_rtt_create", "runtime/rmi/rtt.c:smc_rtt_fold"]}
{"id": "C12", "title": "Folding and unfolding tables is invisible to the realm", "statement": "A successful RTT_CREATE or RTT_FOLD leaves, for every IPA of the realm, the translation (output address, PAS, attributes) and the RIPAS exactly as before.", "quantifier": "all reachable states, realms, levels, IPAs", "why_tests_cant": "512-entry tables at five levels with arbitrary content; the equality must hold for every IPA.", "anchors": ["runtime/rmi/rtt.c:smc_rtt_create", "runtime/rmi/rtt.c:smc_rtt_fold", "lib/s2tt/src/s2tt.c:s2tt_init_assigned_ram"]}
{"id": "C13", "title": "The initial measurement is frozen at activation", "statement": "No command and no realm action changes the realm initial measurement (RIM) of a realm that is ACTIVE or SYSTEM_OFF, and no RMI command ever changes a runtime extensible measurement; those change only by RSI_MEASUREMENT_EXTEND from a REC of the same realm.", "quantifier": "every finite history of RMI commands, REC entries, realm exits and RSI calls, with arbitrary 64-bit arguments, from boot", "why_tests_cant": "Attestation soundness depends on every path.", "anchors": ["runtime/rmi/rtt.c:data_create", "runtime/rmi/rtt.c:smc_rtt_init_ripas", "runtime/rmi/rec.c:smc_rec_create", "runtime/rsi/realm_attest.c:handle_rsi_measurement_extend"]}
{"id": "C14", "title": "The RIM is the hash chain of the realm's construction", "statement": "In every reachable state the RIM of a realm equals the fold of the measurement function over, in order, its creation parameters and the successful DATA_CREATE, runnable REC_CREATE and INIT_RIPAS steps applied to it; hence two realms with the same RIM were, for a collision-free hash, built by the same steps.", "quantifier": "every finite history of RMI commands, REC entries, realm exits and RSI calls, with arbitrary 64-bit arguments, from boot; all hash functions", "why_tests_cant": "Requires relating unbounded histories with a hash chain.", "anchors": ["lib/measurement/src/rim.c", "runtime/rmi/realm.c:smc_realm_create", "runtime/rmi/rtt.c:smc_data_create", "runtime/rmi/rec.c:smc_rec_create"]}
{"id": "C15", "title": "Realm life cycle", "statement": "A realm's state only moves NEW -> ACTIVE (REALM_ACTIVATE) -> SYSTEM_OFF (PSCI SYSTEM_OFF/RESET from the realm); measured contents, RECs and initial RIPAS can only be added while NEW; a REC is only entered while its realm is ACTIVE and never executes while it is NEW.", "quantifier": "every finite history of RMI commands, REC entries, realm exits and RSI calls, with arbitrary 64-bit arguments, from boot", "why_tests_cant": "Universal over histories.", "anchors": ["runtime/rmi/realm.c:smc_realm_activate", "runtime/rmi/run.c:smc_rec_enter", "runtime/rsi/psci.c:system_off_reboot", "runtime/rmi/rtt.c:validate_data_create"]}
{"id": "C16", "title": "VMIDs are unique", "statement": "In every reachable state two distinct realms have distinct VMIDs, every realm's VMID is reserved and every reserved VMID belongs to a realm (no leak on failed REALM_CREATE).", "quantifier": "every finite history of RMI commands, REC entries, realm exits and RSI calls, with arbitrary 64-bit arguments, from boot", "why_tests_cant": "Leak and double use depend on failure paths in any state.", "anchors": ["lib/arch/src/vmid.c", "runtime/rmi/realm.c:smc_realm_create", "runtime/rmi/realm.c:smc_realm_destroy"]}
{"id": "C17", "title": "A REC executes on at most one PE", "statement": "In every reachable state and for any interleaving of REC_ENTER from several PEs, a REC is executed by at most one of them; while it is executing it cannot be entered again, destroyed, or have a PSCI or RIPAS request completed on its behalf.", "quantifier": "every finite history of RMI commands, REC entries, realm exits and RSI calls, with arbitrary 64-bit arguments, from boot from any number of PEs", "why_tests_cant": "Interleavings are unbounded.", "anchors": ["runtime/rmi/run.c:smc_rec_enter", "lib/granule/include/granule.h:find_lock_unused_granule", "runtime/rmi/rec.c:smc_psci_complete", "runtime/rmi/rtt.c:smc_rtt_set_ripas"]}
{"id": "C18", "title": "REC identities are unique and dense", "statement": "The RECs of a realm have pairwise distinct indices smaller than the realm's REC counter and the index is exactly the one encoded in the MPIDR given at creation; the MPIDR the realm reads maps back to that index and distinct valid MPIDRs map to distinct indices.", "quantifier": "every finite history of RMI commands, REC entries, realm exits and RSI calls, with arbitrary 64-bit arguments, from boot; all 64-bit MPIDRs", "why_tests_cant": "2^64 MPIDR values and arbitrary create/destroy histories.", "anchors": ["runtime/rmi/rec.c:smc_rec_create", "runtime/include/rec.h:rec_mpidr_to_idx", "runtime/include/rec.h:mpidr_to_rec_idx"]}
{"id": "C19", "title": "PSCI requests are completed faithfully", "statement": "PSCI_COMPLETE takes effect only if the calling REC has a pending CPU_ON/AFFINITY_INFO request, both RECs are of the same realm and the target is the one the realm named; CPU_ON makes the target runnable at the entry point and with the context id given by the realm, the host can only deny; AFFINITY_INFO reports the true state.", "quantifier": "all states, all register contents of the calling REC, all targets and status values", "why_tests_cant": "Register contents range over 2^64 values and target state is history dependent.", "anchors": ["runtime/rsi/psci.c:psci_complete_request", "runtime/rmi/rec.c:smc_psci_complete"]}
{"id": "C20", "title": "The host writes realm registers only where the realm asked for it", "statement": "At REC entry the host can change a general purpose register of the realm only as the destination of an emulated MMIO read that the realm performed at an unprotected IPA on its last exit, or in x0-x2 as the reply to a pending RIPAS change; everything else is preserved.", "quantifier": "all REC states, all host entry structures", "why_tests_cant": "All flags, syndromes and register values.", "anchors": ["runtime/rmi/run.c:complete_mmio_emulation", "runtime/rmi/run.c:complete_set_ripas", "runtime/rmi/run.c:complete_sysreg_emulation", "runtime/rmi/run.c:smc_rec_enter"]}
{"id": "C21", "title": "REC exits disclose only what the architecture allows", "statement": "On a data abort at a protected IPA the exit record contains no general purpose register, no faulting virtual address, and only the abort class, fault status and page-aligned IPA; at an unprotected IPA a register value is disclosed only for an emulatable write and masked to the access size.", "quantifier": "all syndrome, FAR, HPFAR and register values", "why_tests_cant": "2^64 syndromes.", "anchors": ["runtime/core/exit.c:handle_data_abort", "runtime/core/exit.c:handle_instruction_abort"]}
{"id": "C22", "title": "S2TTE encoding is lossless and unambiguous", "statement": "Each table entry built by the RMM is recognised by exactly one of the nine entry kinds and decodes to the address it was built from, with and without 52-bit addresses (LPA2); the bit patterns of the MMU format agree: an entry is valid to the MMU exactly if it is assigned RAM, assigned NS or a table.", "quantifier": "all physical addresses, levels, RIPAS values and both descriptor formats", "why_tests_cant": "2^52 addresses times levels times kinds.", "anchors": ["lib/s2tt/src/s2tt.c:s2tte_create_assigned", "lib/s2tt/src/s2tt.c:s2tte_pa", "lib/s2tt/src/s2tt_pvt_defs.h"]}
{"id": "C23", "title": "Granule descriptor fields are independent under concurrency", "statement": "For any interleaving of lock, unlock, state change and reference count updates from any number of CPUs on one 16-bit descriptor, lock bit, state and count behave as three independent variables as long as the count stays within 0..1023.", "quantifier": "all interleavings of any number of CPUs", "why_tests_cant": "Interleavings and 16-bit arithmetic carries.", "anchors": ["lib/granule/include/granule.h:granule_set_state", "lib/granule/include/granule.h:granule_refcount_dec", "lib/granule/include/aarch64/granule_lock.h"]}
{"id": "C24", "title": "Granule locks: mutual exclusion and no deadlock", "statement": "For any interleaving of any number of CPUs executing RMI commands, a granule lock is held by at most one CPU, commands only modify granules they have locked, every command releases all its locks, and there is never a cycle of CPUs waiting for each other.", "quantifier": "all interleavings of all commands on any number of CPUs", "why_tests_cant": "Schedules are unbounded.", "anchors": ["lib/granule/src/granule.c:find_lock_two_granules", "lib/s2tt/src/s2tt.c:s2tt_walk_lock_unlock", "runtime/rmi/rec.c:smc_rec_create"]}
{"id": "C25", "title": "REC_CREATE releases only locks it holds", "statement": "When REC_CREATE fails because an auxiliary granule is unusable it does not release a lock it does not hold (so it cannot break another CPU's critical section or trip the lock assertion).", "quantifier": "all states and auxiliary granule lists", "why_tests_cant": "Depends on which auxiliary granule fails and on other CPUs.", "anchors": ["runtime/rmi/rec.c:smc_rec_create"]}
{"id": "C26", "title": "No command makes the RMM assert or dereference an invalid pointer", "statement": "From every reachable state, every RMI command with arbitrary arguments returns a result: no assertion fails, no NULL or out of range granule is dereferenced.", "quantifier": "every finite history of RMI commands, REC entries, realm exits and RSI calls, with arbitrary 64-bit arguments, from boot", "why_tests_cant": "Arguments are 64-bit, states unbounded.", "anchors": ["runtime/rmi/rtt.c", "runtime/rmi/realm.c", "runtime/rmi/rec.c", "lib/s2tt/src/s2tt.c:s2tt_walk_lock_unlock"]}
{"id": "C27", "title": "RTT_READ_ENTRY is truthful", "statement": "RTT_READ_ENTRY returns success for every valid level and aligned address and reports the level, state, RIPAS and address that the realm's tables really have there; for NS mappings it returns exactly the descriptor the host supplied.", "quantifier": "all reachable states, all arguments", "why_tests_cant": "All histories and descriptor values.", "anchors": ["runtime/rmi/rtt.c:smc_rtt_read_entry", "lib/s2tt/src/s2tt.c:host_ns_s2tte"]}
{"id": "C28", "title": "The top address returned by destroy and unmap is right", "statement": "The address returned in 'top' by DATA_DESTROY, RTT_DESTROY and RTT_UNMAP_UNPROTECTED is larger than or equal to the input and no live entry of the table lies between them, so a host that continues from 'top' skips nothing.", "quantifier": "all reachable states, all arguments", "why_tests_cant": "512-entry tables with arbitrary content.", "anchors": ["lib/s2tt/src/s2tt.c:s2tt_skip_non_live_entries"]}
{"id": "C29", "title": "RIPAS ranges are processed exactly", "statement": "INIT_RIPAS and SET_RIPAS change the RIPAS exactly on [base, out_top), never outside [base, top), make progress on success, and SET_RIPAS continues exactly where the previous one stopped; the realm is told exactly the processed prefix.", "quantifier": "all reachable states, all base/top", "why_tests_cant": "Range arithmetic at every level and alignment.", "anchors": ["runtime/rmi/rtt.c:smc_rtt_init_ripas", "runtime/rmi/rtt.c:rtt_set_ripas_range", "runtime/rmi/run.c:complete_set_ripas"]}
{"id": "C30", "title": "No stale TLB entry survives the loss of a mapping", "statement": "In every reachable state, for any hardware TLB fill pattern, every cached stage-2 translation tagged with a live realm's VMID agrees with that realm's current tables; in particular no cached translation points to a granule that no longer belongs to the realm.", "quantifier": "every finite history of RMI commands, REC entries, realm exits and RSI calls, with arbitrary 64-bit arguments, from boot; all TLB fill patterns", "why_tests_cant": "TLB content depends on hardware nondeterminism.", "anchors": ["lib/s2tt/src/s2tt.c:s2tt_invalidate_pages_in_block", "runtime/rmi/rtt.c:smc_rtt_fold", "runtime/rmi/rtt.c:smc_rtt_destroy", "runtime/rmi/realm.c:smc_realm_destroy"]}
{"id": "C31", "title": "The MMU uses the tables the RMM maintains", "statement": "For every REC the VTTBR_EL2/VTCR_EL2 values make the hardware stage-2 walk of every IPA start at the root tables of the REC's realm at the right level and input size, so that the hardware translation equals the RMM's own table walk.", "quantifier": "all realms creatable by REALM_CREATE on all platforms, all IPAs", "why_tests_cant": "All parameter combinations and addresses.", "anchors": ["runtime/rmi/rec.c:init_common_sysregs", "runtime/rmi/rec.c:realm_vtcr", "runtime/rmi/realm.c:smc_realm_create"]}
{"id": "C32", "title": "Granule address and index conversion is a bijection", "statement": "For every well-formed set of DRAM banks the mapping from granule addresses to descriptor indices is total on DRAM, rejects everything else, is injective, inverse to index-to-address, and maps consecutive addresses to consecutive indices.", "quantifier": "all bank layouts, all addresses", "why_tests_cant": "All layouts and 2^64 addresses.", "anchors": ["plat/arm/src/arm_granule.c", "plat/arm/src/arm_memory.c", "lib/granule/src/granule.c:find_granule"]}
{"id": "C33", "title": "Realm parameters accepted by REALM_CREATE are consistent", "statement": "REALM_CREATE accepts exactly the (IPA size, start level, number of root tables) combinations the architecture allows; then the root tables cover exactly the IPA space, with the lower half unassigned EMPTY and the upper half unassigned NS.", "quantifier": "all parameter values", "why_tests_cant": "All combinations of three 64-bit parameters.", "anchors": ["runtime/rmi/realm.c:validate_realm_params", "runtime/rmi/realm.c:s2_inconsistent_sl", "runtime/rmi/realm.c:s2_num_root_rtts", "runtime/rmi/realm.c:init_s2_starting_level"]}
{"id": "C34", "title": "Table walks agree with the architecture", "statement": "For every realm and IPA the RMM's table walk reaches the same entry as the architectural stage-2 walk over the same memory.", "quantifier": "all reachable states, realms, IPAs, levels", "why_tests_cant": "All table contents.", "anchors": ["lib/s2tt/src/s2tt.c:s2tt_walk_lock_unlock", "lib/s2tt/src/s2tt.c:s2_sl_addr_to_idx"]}
{"id": "C35", "title": "The host learns nothing from RMI results about realm secrets", "statement": "Two states that agree on everything the host is entitled to see (granule states, tables, NS memory) but differ in realm memory, realm registers and measurements give the same results for every RMI command and still agree afterwards.", "quantifier": "all pairs of reachable states, all commands", "why_tests_cant": "Non-interference is a property of pairs of executions.", "anchors": ["runtime/rmi/rtt.c", "runtime/rmi/rec.c", "runtime/rmi/granule.c"]}
{"id": "C36", "title": "Every realm can be torn down", "statement": "From every reachable state in which none of a realm's RECs is executing there is a finite sequence of host commands (DATA_DESTROY, RTT_CREATE, RTT_DESTROY, REC_DESTROY, REALM_DESTROY), all succeeding, after which every granule of the realm is DELEGATED again and every other granule, contents included, is as it was: no granule is ever leaked. If memory of the realm is mapped by blocks, the host needs two further delegated granules while it does so, because only single pages can be destroyed.", "quantifier": "every finite history of RMI commands, REC entries, realm exits and RSI calls, with arbitrary 64-bit arguments, from boot", "why_tests_cant": "Existence of a successful command sequence from every reachable state.", "anchors": ["runtime/rmi/realm.c:smc_realm_destroy", "runtime/rmi/rec.c:smc_rec_destroy", "runtime/rmi/rtt.c:smc_data_destroy", "runtime/rmi/rtt.c:smc_rtt_destroy"]}
{"id": "C37", "title": "The mbedTLS heap allocator is memory safe", "statement": "For every sequence of calloc and free calls, live allocations are disjoint, inside the buffer, zeroed and large enough; freeing everything restores the initial single free block; running out of memory returns NULL and changes nothing.", "quantifier": "all sequences of allocation and free, all sizes including overflow", "why_tests_cant": "Unbounded histories and size arithmetic.", "anchors": ["lib/allocator/src/memory_alloc.c"]}
{"id": "C38", "title": "VMID bitmap", "statement": "vmid_reserve succeeds exactly if the value is in range and free, and affects no other VMID; vmid_free makes exactly that VMID available.", "quantifier": "all histories, 8 and 16 bit", "why_tests_cant": "2^16 bits of state.", "anchors": ["lib/arch/src/vmid.c"]}
{"id": "C39", "title": "GIC state supplied by the host is validated", "statement": "REC_ENTER accepts a host list register only if it is empty or describes a virtual interrupt not linked to hardware, with a valid INTID, implemented priority, and no duplicate INTID, and only permitted GICH_HCR bits; everything else is rejected.", "quantifier": "all 16 list registers x 2^64 values", "why_tests_cant": "2^1024 inputs.", "anchors": ["lib/gic/src/gic.c:gic_validate_state"]}
{"id": "C40", "title": "MMIO emulation delivers the architecturally correct value", "statement": "An emulated MMIO read puts into the destination register the host value truncated to the access size, sign- or zero-extended as the instruction demands, and advances the PC by 4; an emulated write changes only the PC.", "quantifier": "all syndromes and host values", "why_tests_cant": "2^64 x 2^32 inputs.", "anchors": ["runtime/rmi/run.c:complete_mmio_emulation", "lib/arch/include/esr.h"]}
{"id": "C41", "title": "SMC dispatch is total and closed", "statement": "For every function identifier value, exactly the RMI commands listed in the interface are dispatched, with the right number of arguments and results, and everything else returns SMC_UNKNOWN.", "quantifier": "all 64-bit function identifiers", "why_tests_cant": "2^64 values.", "anchors": ["runtime/core/handler.c:handle_ns_smc"]}
{"id": "C42", "title": "Attestation tokens are delivered exactly", "statement": "For every sequence of ATTESTATION_TOKEN_CONTINUE calls with arbitrary buffers, the concatenation of the returned chunks is a prefix of the token, equals the token when the call returns success, never exceeds a requested chunk and never crosses a granule.", "quantifier": "all call sequences, sizes and offsets", "why_tests_cant": "Unbounded sequences.", "anchors": ["runtime/rsi/realm_attest.c"]}
{"id": "C43", "title": "Measurement extension follows the specification", "statement": "RSI_MEASUREMENT_EXTEND changes exactly the chosen slot to H(old || value) and rejects slot 0, slots above 4 and sizes above 64; reading returns the current value.", "quantifier": "all arguments, all hash functions", "why_tests_cant": "All values.", "anchors": ["runtime/rsi/realm_attest.c", "lib/measurement/src/measurement.c"]}
{"id": "C44", "title": "RSI_IPA_STATE_GET is truthful", "statement": "RSI_IPA_STATE_GET returns the RIPAS of the base page and a top such that every page in [base, top) has that RIPAS, base < top <= end.", "quantifier": "all reachable states, all ranges", "why_tests_cant": "All table contents.", "anchors": ["runtime/rsi/memory.c:handle_rsi_ipa_state_get", "runtime/rsi/realm_ipa_helper.c:realm_ipa_get_ripas"]}
{"id": "C45", "title": "RSI arguments are validated", "statement": "RSI_IPA_STATE_SET, RSI_HOST_CALL, RSI_REALM_CONFIG and the attestation calls accept exactly aligned, in-range protected addresses and defined enumeration values.", "quantifier": "all register values", "why_tests_cant": "2^64 values per argument.", "anchors": ["runtime/rsi/memory.c:handle_rsi_ipa_state_set", "runtime/rsi/host_call.c", "runtime/rsi/config.c", "runtime/rsi/realm_attest.c"]}
{"id": "C46", "title": "Faults reported to the host for RSI buffers are well formed", "statement": "When an RSI call needs memory that is not mapped, the exit record reports a stage-2 translation fault whose fault status encodes the level at which the walk stopped and whose address is the page of the buffer, for every start level.", "quantifier": "all reachable states, all addresses", "why_tests_cant": "All levels including level -1.", "anchors": ["runtime/core/exit.c:emulate_stage2_data_abort", "runtime/rsi/realm_ipa_helper.c:realm_ipa_to_pa"]}
{"id": "C47", "title": "EL3 boot manifest validation", "statement": "The boot manifest is accepted only if its banks are granule aligned, ordered, non-overlapping and the checksum over the whole table is zero.", "quantifier": "all manifests", "why_tests_cant": "All manifests.", "anchors": ["lib/rmm_el3_ifc/src/rmm_el3_ifc_manifest.c"]}
{"id": "C48", "title": "SIMD state never leaks between worlds", "statement": "For every sequence of traps, entries and exits, the CPU's SIMD registers are only ever live for the world that owns them and are restored to exactly the values that world saved.", "quantifier": "all sequences", "why_tests_cant": "Unbounded histories.", "anchors": ["lib/arch/src/simd.c", "runtime/core/run.c", "runtime/core/exit.c"]}
{"id": "C49", "title": "Synchronous exception injection is architectural", "statement": "Injecting an abort into a realm sets ELR, SPSR, ESR, FAR, the PC to the vector for the interrupted mode and PSTATE to EL1h with interrupts masked, for every interrupted state.", "quantifier": "all PSTATE, syndrome and vector base values", "why_tests_cant": "2^64 values.", "anchors": ["runtime/core/inject_exp.c"]}
{"id": "C50", "title": "CPU slot buffers are balanced", "statement": "Every command that maps a granule into a per-CPU slot finds the slot empty and unmaps it before returning.", "quantifier": "all states and commands, including error paths", "why_tests_cant": "All paths.", "anchors": ["lib/slot_buf/src/buffer.c", "runtime/rmi/rtt.c", "runtime/core/handler.c:handle_ns_smc"]}
{"id": "C51", "title": "Commands succeed exactly when their conditions hold", "statement": "Each of the RMI commands on granules, realms, RECs (except REC_CREATE) and table entries (except fold and RIPAS changes) succeeds if and only if its documented preconditions hold, and the error code of a failing command names a precondition that does not hold (1 arguments, 2 realm state, 3 REC state, 4 with the level where the table walk ends).", "quantifier": "all reachable states, all argument values", "why_tests_cant": "Acceptance has to be exact over all states and all 64-bit arguments.", "anchors": ["runtime/rmi/granule.c", "runtime/rmi/realm.c", "runtime/rmi/rec.c:smc_rec_destroy", "runtime/rmi/rtt.c"]}
{"id": "C52", "title": "Interrupt and timer state of an execution context is kept and reported", "statement": "When a REC is entered, the list registers and the host-owned bits of ICH_HCR_EL2 are those the host supplies and everything else of the virtual interrupt state is as the REC left it; the realm runs only while the outputs of its two timers are those the host has been told of, and an output it has been told of is masked. When the realm leaves, the list registers, active priorities, VMCR, EOI count and timers of the processor are stored in the REC, and the host is told exactly the list registers, its own bits and the EOI count, MISR, VMCR, the timers relative to the realm's offsets, and the PMU overflow state if the realm has a PMU.", "quantifier": "all reachable states, all entries and exits, all interrupt controller and timer states, all numbers of list registers", "why_tests_cant": "It relates every bit of the interrupt state over any sequence of entries and exits, for every value the hardware or host may choose.", "anchors": ["runtime/core/run.c", "runtime/core/timers.c:check_pending_timers", "runtime/core/timers.c:report_timer_state_to_ns", "lib/gic/src/gic.c"]}
{"id": "C53", "title": "A new execution context starts in the state its creator chose and in nothing else", "statement": "After REC_CREATE the REC has the program counter, the eight general registers, the runnable flag, the auxiliary granules and the affinity the host supplied; all other general registers are zero, every system register has its documented reset value, PSTATE is EL1h with exceptions masked, nothing is pending, the virtual interrupt state is reset, and its address space, hash algorithm, SIMD and PMU configuration are those of the realm.", "quantifier": "all reachable states, all parameters, all prior contents of the granule", "why_tests_cant": "Absence of leftover state must hold for every prior use of the granule and for every register.", "anchors": ["runtime/rmi/rec.c:smc_rec_create", "runtime/rmi/rec.c:init_rec_regs", "runtime/rmi/rec.c:init_rec_sysregs"]}
{"id": "C54", "title": "Every exception of a realm has its defined effect on the realm and no other", "statement": "For every exception but an SMC: interrupts and SErrors leave the registers of the realm alone; WFI/WFE and emulated accesses to system registers are skipped; ID registers read as the processor's value without the hidden features and other trapped registers as zero; HVC and SIMD use that is not allowed are undefined instructions; aborts outside of the address space, on EMPTY pages or for instruction fetches from unprotected memory are taken by the realm as external aborts; all others leave it at the instruction for the host to handle. Nothing but the REC changes.", "quantifier": "all reachable states, all exceptions, syndromes, fault addresses and register values", "why_tests_cant": "The syndrome, the fault address and the realm's registers range over 64-bit values and interact with the tables of the realm.", "anchors": ["runtime/core/exit.c:handle_realm_exit", "runtime/core/sysregs.c:handle_sysreg_access_trap", "runtime/core/inject_exp.c"]}
{"id": "C55", "title": "The monitor's own page tables translate exactly what its memory regions ask for", "statement": "For a list of memory regions that the configuration function accepts, after the tables have been built and the MMU configured, every virtual address of a region translates to the physical address at the same offset of that region with the permissions its attributes ask for, and every other 64-bit address faults. Building the tables changes no memory outside of them, fails only when the tables are missing, misaligned or already built, and stops the monitor only for an unknown memory type or when fewer tables are supplied than the regions need.", "quantifier": "all lists of regions, sizes, granularities and attributes, both halves of the address space, with and without 52-bit addresses, all virtual addresses, all prior memory contents", "why_tests_cant": "Regions, alignments and block sizes combine without bound; tests look at sampled addresses.", "anchors": ["lib/xlat/src/xlat_tables_core.c:xlat_tables_map_region", "lib/xlat/src/xlat_contexts.c:xlat_ctx_cfg_init", "lib/xlat/src/xlat_contexts.c:xlat_ctx_init", "lib/xlat/src/xlat_tables_arch.c:xlat_arch_setup_mmu_cfg"]}
{"id": "C56", "title": "No memory of the monitor is both writable and executable", "statement": "Whatever regions the monitor is configured with, no virtual address is translated with permission to write and to execute at the monitor's exception level, and device memory is never executable there.", "quantifier": "all accepted configurations, all virtual addresses", "why_tests_cant": "It is about all attribute combinations and all addresses.", "anchors": ["lib/xlat/src/xlat_tables_core.c:xlat_desc"]}
{"id": "C57", "title": "No physical page of the monitor is mapped at two addresses", "statement": "A list of memory regions in which two regions that are mapped from the start share a physical address is rejected.", "quantifier": "all lists of regions", "why_tests_cant": "All relative positions of all pairs of regions have to be considered.", "anchors": ["lib/xlat/src/xlat_contexts.c:validate_mmap_regions"]}
{"id": "C58", "title": "Mapping or unmapping a page on demand changes the translation of exactly that page", "statement": "At any time after the tables were built, mapping on demand either fails and changes nothing, or the address is in a region declared for this, nothing was mapped there before, and afterwards its page (or block) translates to the physical address asked for with the attributes asked for and every other address translates as before. Unmapping likewise either changes nothing or makes exactly that page fault again and removes the cached translation of that page. With the table of the address itself both succeed whenever the region allows it, the page is free (or mapped) and the physical address is in range. Addresses of other regions always translate as configured. This holds for addresses up to 2^32 entries away from the start of the table that is passed; beyond that the code accepts a wrong address (finding F28).", "quantifier": "all accepted configurations, all histories of mapping and unmapping, all addresses, physical addresses and attributes, tables looked up at any earlier time", "why_tests_cant": "The effect has to be known for all other addresses and after every history.", "anchors": ["lib/xlat/src/xlat_tables_utils.c:xlat_map_memory_page_with_attrs", "lib/xlat/src/xlat_tables_utils.c:xlat_unmap_memory_page", "lib/xlat/src/xlat_tables_utils.c:xlat_get_llt_from_va", "lib/xlat/src/xlat_tables_utils.c:xlat_get_tte_ptr"]}
{"id": "C59", "title": "A slot buffer gives access to the granule that was mapped into it and to nothing else", "statement": "For every history of mapping granules into the slots of a CPU and unmapping them: a slot address translates to exactly the granule mapped there last and not yet unmapped, writable, not executable, not accessible from EL0, in the non-secure address space for the slot for host memory and in the realm address space for the others; mapping into an occupied slot or a granule out of range returns NULL and changes nothing; unmapping an empty slot stops the monitor; the check made on entry and exit reports exactly whether all slots are empty; the stacks of the CPU stay mapped and the pages between them are never mapped.", "quantifier": "all stack sizes and positions for which the set-up succeeds, all histories of calls, all addresses of the upper half", "why_tests_cant": "It quantifies over histories of calls and over all addresses.", "anchors": ["lib/slot_buf/src/buffer.c:buffer_map_internal", "lib/slot_buf/src/buffer.c:buffer_unmap_internal", "lib/slot_buf/src/buffer.c:check_cpu_slots_empty", "lib/xlat/src/xlat_high_va.c:xlat_high_va_setup"]}
{"id": "C60", "title": "A realm gets its token only with the signature that EL3 made for this token", "statement": "When tokens are signed by EL3, signing of a token ends well only after EL3 answered the request that was made for this token since the realm started it, answers to cancelled requests are dropped, and the token that the realm reads has the signature over its own payload. True as long as no token is started in a REC while another CPU writes an answer to it and signatures are fetched by the CPU that runs the REC; otherwise wrong (findings F30, F31).", "quantifier": "all schedules of all CPUs, all numbers of RECs, tokens, cancelled requests, all orders and delays of the answers of EL3", "why_tests_cant": "The bugs need two CPUs, two RECs and a particular order of steps.", "anchors": ["lib/attestation/src/attestation_el3_token_sign.c:attest_el3_token_write_response_to_ctx", "lib/attestation/src/attestation_el3_token_sign.c:el3_token_sign_queue_try_enqueue", "lib/t_cose/src/t_cose_el3_token_sign.c:t_cose_crypto_el3_token_sign_restart", "runtime/rsi/realm_attest.c:write_response_to_rec", "runtime/rsi/realm_attest.c:handle_rsi_attest_token_continue", "lib/attestation/src/attestation_token.c:attest_token_ctx_init"]}
{"id": "C61", "title": "Answers of EL3 to requests to sign cannot stop the monitor", "statement": "Whatever the order and the delay of the answers, the assertions about tickets, cookies, lengths and queued requests hold and nothing is written through a NULL pointer. For tickets and cookies this holds in every schedule, for the others if no token is started in a REC while another CPU writes an answer to it (finding F31).", "quantifier": "all schedules of all CPUs with fewer than 2^64 steps, all answers of EL3", "why_tests_cant": "It quantifies over schedules and histories of requests.", "anchors": ["lib/attestation/src/attestation_el3_token_sign.c:attest_el3_token_write_response_to_ctx", "lib/t_cose/src/t_cose_el3_token_sign.c:t_cose_crypto_el3_token_sign_restart", "lib/attestation/src/attestation_token.c:attest_realm_token_sign"]}
{"id": "C62", "title": "The buffer shared with EL3 is released after every use", "statement": "After every call that uses it the lock of the buffer shared with EL3 is free, so that realms can go on signing. Wrong when EL3 fails to hand out a signature: after one such failure no request is accepted on any CPU any more (finding F29).", "quantifier": "all schedules of all CPUs, all answers of EL3", "why_tests_cant": "The effect shows on other CPUs and in all later calls.", "anchors": ["lib/attestation/src/attestation_el3_token_sign.c:attest_el3_token_sign_pull_response_from_el3", "lib/attestation/src/attestation_el3_token_sign.c:el3_token_sign_queue_try_enqueue"]}
{"id": "C63", "title": "Formatted output never leaves its buffer", "statement": "For every format and every list of arguments of the kinds that the format asks for, snprintf writes only into the buffer that it is given, ends the text with a NUL, cuts the text exactly where it does not fit, and returns the length of the uncut text, which does not depend on the buffer.", "quantifier": "all formats, arguments, widths, precisions, buffers and sizes", "why_tests_cant": "It quantifies over all formats, values and sizes; the digits go through a local buffer of 32 bytes.", "anchors": ["lib/libc/src/printf.c:_vsnprintf", "lib/libc/src/printf.c:_ntoa_format", "lib/libc/src/printf.c:_out_rev"]}
{"id": "C64", "title": "Integers are printed as the C standard says", "statement": "A 64-bit integer printed with flags, width, precision and one of the conversions d, i, u, x, X, o comes out in the form that the C standard prescribes: sign, digits of the value, zeros for the precision, padding to the width. Wrong with the flag # (finding F33), with - and a precision, and with precisions above 32 (finding F34).", "quantifier": "all values, flags, widths, precisions, conversions, buffers", "why_tests_cant": "The combinations of flags, widths and values are far too many; the wrong ones are corner cases.", "anchors": ["lib/libc/src/printf.c:_ntoa_format", "lib/libc/src/printf.c:_ntoa_long", "lib/libc/src/printf.c:_vsnprintf"]}
{"id": "C65", "title": "Logging the calls of a realm cannot stop the monitor", "statement": "Whatever a realm calls, with whatever arguments and results, logging the call writes only into the logger's buffer, passes its assertions, and the line names the call with its arguments, its status and its results. Wrong for one call: SMC_RSI_RDEV_GET_INTERFACE_REPORT stops the monitor (finding F32).", "quantifier": "all function ids, arguments and results", "why_tests_cant": "The line must fit for all lengths of all arguments; the longest possible line leaves no byte to spare.", "anchors": ["runtime/rsi/logger.c:rsi_log_on_exit", "runtime/rsi/logger.c:print_entry"]}
{"id": "C66", "title": "Running a realm leaves the host's performance counters as they were", "statement": "After any history of host and realms, entering a REC of a realm with PMU gives the host back all its PMU registers with the same values, including the counters that are not assigned to the realm. True if the counter that the realm had selected when it ran last is one of its own; otherwise that counter of the host goes back to an old value (finding F35).", "quantifier": "all histories on a CPU with any number of RECs, all numbers of counters, all actions of realms, all values of all registers", "why_tests_cant": "It quantifies over histories; the bug needs two entries of the same REC and a change of the host's counter in between.", "anchors": ["lib/arch/src/pmu.c:pmu_save_state", "lib/arch/src/pmu.c:pmu_restore_state", "runtime/core/run.c:save_ns_state", "runtime/core/run.c:restore_ns_state"]}
{"id": "C67", "title": "A realm finds its performance counters as it left them, and the host hears of its overflows only", "statement": "At the next entry of a REC, whatever happened in between, the realm finds all PMU registers and counters assigned to it with the values that it left. The exit reports an overflow if and only if one of the realm's own counters has overflowed with counter, interrupt and PMU enabled.", "quantifier": "all histories, all states of the hardware at the next entry, all actions of the realm", "why_tests_cant": "It quantifies over all values of all registers and all histories.", "anchors": ["lib/arch/src/pmu.c:pmu_save_state", "lib/arch/src/pmu.c:pmu_restore_state", "lib/arch/src/pmu.c:pmu_update_rec_exit", "runtime/core/run.c:restore_realm_state"]}
{"id": "C68", "title": "A realm cannot stop the monitor through the PMU", "statement": "Saving and restoring the PMU never executes an undefined instruction, whatever the realm wrote to its PMU registers. True on CPUs that ignore accesses to a selected counter that does not exist; on CPUs on which such an access is undefined, as the architecture allows, a realm stops the monitor (finding F36).", "quantifier": "all histories, all actions of realms, all CPUs that the architecture allows", "why_tests_cant": "It depends on a choice of the hardware that a given test machine makes in one way.", "anchors": ["lib/arch/src/pmu.c:pmu_save_state", "lib/arch/src/pmu.c:pmu_restore_state"]}
{"id": "C69", "title": "Copies of memory are exact, also when they overlap", "statement": "memmove leaves in the destination the bytes that were in the source before, whatever the overlap of the two, and changes no other byte and reads and writes nothing outside of the two; memcpy does so wherever the destination does not lie in what is still to be read.", "quantifier": "all memories, addresses, lengths and overlaps below 2^64", "why_tests_cant": "The direction of the copy depends on a difference that wraps at 2^64, for every pair of addresses and length.", "anchors": ["lib/libc/src/memmove.c:memmove", "lib/libc/src/memcpy.c:memcpy"]}
{"id": "C70", "title": "Comparisons of memory and strings are the order of the dictionary", "statement": "The sign of memcmp, strcmp and strncmp is that of the first bytes that differ, as unsigned bytes, a string that ends earlier being less; they read nothing after the first NUL, and strncmp nothing after n bytes.", "quantifier": "all memories and strings of any length", "why_tests_cant": "The strings are of any length and any bytes, including those that are negative as a char.", "anchors": ["lib/libc/src/memcmp.c:memcmp", "lib/libc/src/strcmp.c:strcmp", "lib/libc/src/strncmp.c:strncmp"]}
{"id": "C71", "title": "String functions stay in their strings and return what they say", "statement": "strlen and strnlen return the number of bytes before the NUL (strnlen at most n, without reading more than n bytes); strchr returns the first place of the character, the NUL included, or NULL; strlcpy leaves in a buffer of any size the longest start of the string that fits with a NUL, changes nothing after that NUL or outside of the buffer, nothing at all for size 0, and returns the length of the whole string.", "quantifier": "all memories, strings of any length, buffer sizes including 0", "why_tests_cant": "It is about every length against every size; one byte too many is silent in a test.", "anchors": ["lib/libc/src/strlen.c:strlen", "lib/libc/src/strnlen.c:strnlen", "lib/libc/src/strchr.c:strchr", "lib/libc/src/strlcpy.c:strlcpy"]}
{"id": "C72", "title": "The platform token is what EL3 handed out", "statement": "If EL3 hands out the platform token in pieces, being busy in between as often as it likes, then RMM ends up with exactly that token, or with an error if it is too large for its buffer; every call up to the first piece carries the hash of the realm attestation public key as the challenge, later ones carry none; the shared buffer is released on every way out, and no answer of EL3 makes RMM access memory outside of its buffers. The last part holds for sizes that do not wrap and fit the shared buffer only (F38), and for errors that are not 0 in their low 32 bits (F39).", "quantifier": "all tokens, all ways to cut them, all numbers of busy answers, all answers of EL3", "why_tests_cant": "EL3 decides on the pieces and when it is busy; tests use one fixed token and one EL3.", "anchors": ["lib/attestation/src/attestation_key.c:attest_setup_platform_token", "lib/attestation/src/attestation_key.c:attest_get_platform_token", "lib/rmm_el3_ifc/src/rmm_el3_runtime.c:rmm_el3_ifc_get_platform_token"]}
{"id": "C73", "title": "There is one attestation key, and what is handed out belongs to it", "statement": "In every history of the boot calls and for every answer of EL3: the public key and its hash handed out are those of the key that was imported; once loaded they never change; a platform token is there only with a key; where RMM signs, the private key is no longer in the buffer shared with EL3 when the call returns. The size of the key is taken from EL3 unchecked (F40).", "quantifier": "all histories of calls, all answers of EL3, all results of the crypto library", "why_tests_cant": "Failures in each step, in any order and number of calls, would have to be injected.", "anchors": ["lib/attestation/src/attestation_key.c:attest_init_realm_attestation_key", "lib/attestation/src/attestation_key.c:attest_get_realm_public_key", "lib/attestation/src/attestation_key.c:attest_get_realm_signing_key", "lib/rmm_el3_ifc/src/rmm_el3_runtime.c:rmm_el3_ifc_get_realm_attest_key"]}
{"id": "C74", "title": "An attestation token says what was asked for, in the format of the specification", "statement": "In every history of RSI_ATTESTATION_TOKEN_INIT and _CONTINUE of a REC, a token that is made is one well-formed CBOR item that fits the buffer: a CCA token (tag 399) with the platform token and a COSE_Sign1 (tag 18, ES384) whose payload is the map of the eight realm claims, each with the value the realm had at the last RSI_ATTESTATION_TOKEN_INIT and with the challenge of that call, and with a signature produced since that call. At most one token is made for a request, and no history trips an assert.", "quantifier": "all histories of calls, with any failure of the heap, the key, the signer and the platform token in between; all claims, keys, signatures and platform tokens; all buffer sizes", "why_tests_cant": "Lengths change the width of the CBOR heads, and aborted, failed and repeated requests can be interleaved in any way; tests encode one token.", "anchors": ["lib/attestation/src/attestation_token.c:attest_realm_token_create", "lib/attestation/src/attestation_token.c:attest_realm_token_sign", "lib/attestation/src/attestation_token.c:attest_cca_token_create", "lib/attestation/src/attestation_token.c:attest_token_ctx_init", "runtime/rsi/realm_attest.c:handle_rsi_attest_token_init", "runtime/rsi/realm_attest.c:handle_rsi_attest_token_continue"]}
{"id": "C75", "title": "A request for a token ends in one if the platform token leaves room", "statement": "A RSI_ATTESTATION_TOKEN_INIT in any state, followed by a signature after any number of steps, ends in a token whenever the platform token is at least 788 bytes smaller than the buffer; the 1024 bytes for the realm token always suffice. It is not so for every platform token that RMM accepts: in the default configuration one of 4096 bytes is accepted and no token ever fits (F41).", "quantifier": "all histories before, all claims, public keys up to 129 bytes, numbers of signing steps, platform tokens below 64 KiB, buffer sizes", "why_tests_cant": "The worst case over all lengths decides whether the buffers suffice.", "anchors": ["lib/attestation/src/attestation_token.c:attest_realm_token_create", "lib/attestation/src/attestation_token.c:attest_realm_token_sign", "lib/attestation/src/attestation_token.c:attest_cca_token_create", "lib/attestation/src/attestation_token.c:attest_token_ctx_init"]}
{"id": "C76", "title": "Equal tokens are about the same realm", "statement": "If the same bytes are an attestation token for two sets of claims, then the platform token, the public key, the signature, the hash algorithm, the personalization value, the challenge, and all measurements (in the length of the algorithm) agree.", "quantifier": "all byte strings and all claims", "why_tests_cant": "It is a statement on all pairs of tokens (injectivity of the encoding).", "anchors": ["lib/attestation/src/attestation_token.c:attest_realm_token_create", "lib/attestation/src/attestation_token.c:attest_cca_token_create"]}
{"id": "C77", "title": "Pointer authentication keys of realms and of the monitor do not mix", "statement": "Whenever a realm runs, all ten key registers hold what that realm wrote last on any CPU, or zeros if it never wrote; whenever RMM runs, outside or inside of the run loop of a REC, its instruction key is the one drawn from the entropy source at the last boot of that CPU, and authentication is enabled. Boot waits until the entropy source succeeded twice, however often it fails.", "quantifier": "all interleavings of boots, power downs, host, entries, exits and key writes on any number of CPUs and RECs; all answers of the entropy source", "why_tests_cant": "A mix-up shows only for certain orders of entries and exits on several CPUs.", "anchors": ["lib/arch/src/pauth.c:pauth_init_enable_el2", "lib/arch/src/pauth.c:pauth_restore_rmm_keys", "lib/arch/src/pauth.c:pauth_restore_realm_keys", "lib/arch/src/pauth.c:pauth_save_realm_keys", "runtime/core/run.c:rec_run_loop"]}
{"id": "C78", "title": "The crash handler's stack trace cannot crash", "statement": "Whatever memory and the frame pointer contain, the unwinder ends, never makes a load that faults (unaligned, not mapped, across the end of the address space), and shows at most 20 addresses, only ones code can be read from. The calls of an intact stack are shown in order, innermost first, without authentication codes; a frame pointer that leads to no frame record is reported as corrupted.", "quantifier": "all contents of memory, all mappings, all frame pointers, including cyclic and corrupted stacks", "why_tests_cant": "It runs when the stack may contain anything.", "anchors": ["lib/debug/src/backtrace.c:unwind_stack", "lib/debug/src/backtrace.c:is_valid_object", "lib/debug/src/backtrace.c:is_valid_jump_address"]}
{"id": "C79", "title": "The monitor's memory map is the one its image asks for", "statement": "After a successful setup of the platform, code can be executed and not written, constants can only be read, data, the buffer shared with EL3 and the registers of the console can be written and not executed, and every other address faults, in particular the page between the data and the shared buffer. Regions that a platform adds cannot change how the image and the buffer are mapped, and outside of those exactly these regions are mapped. The array of regions is never overrun, and a layout of whole pages that do not overlap is not rejected.", "quantifier": "all addresses of the sections, all addresses of the shared buffer and of the console, all lists of platform regions, all virtual addresses", "why_tests_cant": "It concerns every virtual address under every layout that a linker and a manifest can produce.", "anchors": ["plat/common/src/plat_common_init.c:plat_cmn_setup", "plat/arm/src/arm_setup.c:plat_setup", "lib/xlat/src/xlat_contexts.c:xlat_ctx_cfg_init"]}
{"id": "C80", "title": "The use of a null pointer faults", "statement": "No address of the first page is mapped after the setup of the platform, so that an access of the monitor through a null pointer faults and does not reach memory.", "quantifier": "all layouts of the image above the first page, with or without a console, all addresses of the first page", "why_tests_cant": "It concerns every boot manifest.", "anchors": ["plat/arm/src/arm_setup.c:plat_setup", "plat/common/src/plat_common_init.c:plat_cmn_setup"]}
{"id": "C81", "title": "Attestation is available exactly after a complete start", "statement": "After the start of the attestation library, realms can have tokens signed exactly when every step of the start succeeded (generators, cryptography, realm attestation key, platform token and, where EL3 signs, its queue). Whatever happened, the heap used for the start is not left assigned to the CPU, and data independent timing is disabled again.", "quantifier": "all outcomes of all steps of the start, all answers of the source of entropy", "why_tests_cant": "It concerns every combination of failures at boot.", "anchors": ["lib/attestation/src/attestation_utils.c:attestation_init", "lib/attestation/src/attestation_utils.c:attestation_heap_ctx_init"]}
{"id": "C82", "title": "Each CPU has a random number generator of its own", "statement": "The generator of a CPU is seeded with a block of its own of the output of a generator that was seeded with 16 words of entropy, failures of the source left out. In any interleaving of requests, a CPU is given what its generator gives for its own requests alone.", "quantifier": "all generators, all numbers of CPUs, all answers of the source of entropy, all interleavings of requests", "why_tests_cant": "It concerns every interleaving and every sequence of failures.", "anchors": ["lib/attestation/src/attestation_rnd.c:attest_rnd_prng_init", "lib/attestation/src/attestation_rnd.c:mbedtls_psa_external_get_random", "lib/attestation/src/attestation_rnd.c:get_random_seed"]}
