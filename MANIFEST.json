{
 "claims": [
  {
   "property": "C01",
   "status": "proved",
   "theorems": [
    "C01_exclusive",
    "C01_translations"
   ],
   "note": "Two translations with a realm (non-NS) output to the same granule are of the same realm and page, in every reachable state, for tables and for the hardware walk."
  },
  {
   "property": "C02",
   "status": "proved",
   "theorems": [
    "C02_reaches_data"
   ],
   "note": "Every address a realm can translate leads to one of its own DATA granules or to unprotected memory, by the tables and by the hardware walk."
  },
  {
   "property": "C03",
   "status": "proved",
   "theorems": [
    "C03_ns_upper"
   ],
   "note": "Unprotected mappings are in the upper half of the address space only."
  },
  {
   "property": "C04",
   "status": "proved",
   "theorems": [
    "C04_scrubbed"
   ],
   "note": "A granule that returns to the host or to the realm pool is zero."
  },
  {
   "property": "C05",
   "status": "proved",
   "theorems": [
    "C05_moves",
    "C05_states",
    "C05_edges",
    "C05_to_host"
   ],
   "note": "Every step of every CPU: which granules change state, when, and exactly how."
  },
  {
   "property": "C06",
   "status": "proved",
   "theorems": [
    "C06_tables",
    "C06_realms",
    "C06_recs",
    "C06_others"
   ],
   "note": "Counts of tables, realms, RECs and all other granules in every reachable state, read through the architecture's decoding of the tables."
  },
  {
   "property": "C07",
   "status": "proved",
   "theorems": [
    "C07_tables",
    "C07_once",
    "C07_referenced_once",
    "C07_roots"
   ],
   "note": "Every RTT granule is a table of exactly one realm at one place, referred to by exactly one descriptor or root."
  },
  {
   "property": "C08",
   "status": "proved",
   "theorems": [
    "C08_realm",
    "C08_rec",
    "C08_rtt"
   ],
   "note": "Success of a destroy command implies that the object was not in use."
  },
  {
   "property": "C09",
   "status": "partial",
   "theorems": [
    "C09_failing_partial",
    "C09_refuted"
   ],
   "note": "False for PSCI_COMPLETE with status DENIED for a CPU that is on (C09_refuted); proved for everything else, with the exact exception in the statement."
  },
  {
   "property": "C10",
   "status": "proved",
   "theorems": [
    "C10_pages",
    "C10_ripas",
    "C10_request"
   ],
   "note": "Every step: the RIPAS of a protected page of a realm that is not NEW changes only to DESTROYED or as a REC of the realm asked; the request is made by the REC alone."
  },
  {
   "property": "C11",
   "status": "proved",
   "theorems": [
    "C11_words",
    "C11_withdrawn",
    "C11_memory"
   ],
   "note": "Every step that is no action of the realm: what the realm reads is unchanged, zero where memory is new, its own memory coming back, or the reply to its host call; withdrawn pages are DESTROYED."
  },
  {
   "property": "C12",
   "status": "proved",
   "theorems": [
    "C12_invisible"
   ],
   "note": "RTT_CREATE and RTT_FOLD change no page and no translation (output address, address space, execute-never, attribute fields) of any realm."
  },
  {
   "property": "C13",
   "status": "proved",
   "theorems": [
    "C13_frozen"
   ],
   "note": "Per step of the machine, hence for every history."
  },
  {
   "property": "C14",
   "status": "proved",
   "theorems": [
    "C14_rim",
    "C14_built",
    "C14_same_rim"
   ],
   "note": "RIM of every realm of every reachable state equals the chain, over the parameter hash, of exactly the steps that succeeded on it before activation (RAM declarations per entry block, measured and unmeasured-but-present pages, runnable RECs); equal RIMs imply equal steps and parameters when the hash has no collisions (hash functions themselves are a parameter of the model)."
  },
  {
   "property": "C15",
   "status": "proved",
   "theorems": [
    "C15_states",
    "C15_created",
    "C15_built_new",
    "C15_entered_active",
    "C15_running",
    "C15_executes_off_refuted"
   ],
   "note": "The stronger reading (a REC executes only while ACTIVE) is refuted by C15_executes_off_refuted."
  },
  {
   "property": "C16",
   "status": "proved",
   "theorems": [
    "C16_vmids"
   ],
   "note": "Realms that exist have distinct VMIDs, all of them marked in the bitmap."
  },
  {
   "property": "C17",
   "status": "proved",
   "theorems": [
    "C17_once",
    "C17_busy"
   ],
   "note": "Interleaving of commands of all CPUs; commands are atomic steps in this model."
  },
  {
   "property": "C18",
   "status": "proved",
   "theorems": [
    "C18_index",
    "C18_distinct",
    "C18_injective",
    "C18_of_mpidr",
    "C18_created"
   ],
   "note": "Indices and MPIDRs of the RECs of a realm, both directions."
  },
  {
   "property": "C19",
   "status": "proved",
   "theorems": [
    "C19_complete",
    "C19_power",
    "C19_waiting",
    "C19_calls"
   ],
   "note": "The exact cases of PSCI_COMPLETE, the only ways the power state of a REC changes, and that a waiting REC keeps its registers. The error that is returned although the request is completed is C09_refuted."
  },
  {
   "property": "C20",
   "status": "proved",
   "theorems": [
    "C20_entry",
    "C20_emulated"
   ],
   "note": "Exact list of the values the host can give to registers at REC_ENTER; everything else is preserved. Emulated loads are completed."
  },
  {
   "property": "C21",
   "status": "partial",
   "theorems": [
    "C21_store_refuted",
    "C21_exit_partial"
   ],
   "note": "Exact content of every exit record. The claim about unprotected addresses is false for stores without a valid syndrome, which disclose the low byte of x0 (C21_store_refuted); all other cases are as claimed."
  },
  {
   "property": "C22",
   "status": "proved",
   "theorems": [
    "C22_unambiguous",
    "C22_address",
    "C22_injective",
    "C22_mmu",
    "C22_ripas",
    "C22_host_descriptor"
   ],
   "note": "all addresses, levels and both descriptor formats; MMU side stated with the independent Arch.v"
  },
  {
   "property": "C23",
   "status": "proved",
   "theorems": [
    "C23_fields",
    "C23_fails",
    "C23_lock",
    "C23_word"
   ],
   "note": "Every interleaving of the atomic accesses of any number of CPUs; clients follow the locking rules of granule.h; C23_needs_lock shows that they must"
  },
  {
   "property": "C24",
   "status": "partial",
   "theorems": [
    "C24_exclusion_partial",
    "C24_lock_bit_partial",
    "C24_writes_partial",
    "C24_release_partial",
    "C24_deadlock_partial",
    "C24_refuted"
   ],
   "note": "Mutual exclusion, writes under the lock, release of all locks for every interleaving of any commands without the faulty release of REC_CREATE; no waiting cycle among commands that lock only granules named by the host. The claim as stated is false (C24_refuted: REC_CREATE releases the lock of another CPU). Missing: cycles through table walks."
  },
  {
   "property": "C25",
   "status": "partial",
   "theorems": [
    "C25_refuted",
    "C25_partial"
   ],
   "note": "Refuted for an auxiliary granule after the first that cannot be used (finding F1); proved for every other command and argument list."
  },
  {
   "property": "C26",
   "status": "partial",
   "theorems": [
    "C26_partial",
    "C26_rec_create_refuted",
    "C26_map_refuted",
    "C26_psci_refuted",
    "C26_icc_refuted",
    "C26_levels_refuted"
   ],
   "note": "Five refutations with witnesses (findings F1, F2, F5, F6 and ICC registers); everything else is proved not to stop the monitor, under the stated assumptions about what the processor reports."
  },
  {
   "property": "C27",
   "status": "proved",
   "theorems": [
    "C27_read",
    "C27_host_descriptor"
   ],
   "note": "success condition, reported level, state, address and RIPAS for every argument; host descriptor read back after RTT_MAP_UNPROTECTED"
  },
  {
   "property": "C28",
   "status": "proved",
   "theorems": [
    "C28_top"
   ],
   "note": "all three commands, on success and on failure; the example shows that the address may lie beyond the address space of a realm whose first table is larger than it"
  },
  {
   "property": "C29",
   "status": "proved",
   "theorems": [
    "C29_pages",
    "C29_init",
    "C29_set",
    "C29_told"
   ],
   "note": "Exact effect of every command on every page; progress and range of INIT_RIPAS and SET_RIPAS; what the REC is told."
  },
  {
   "property": "C30",
   "status": "partial",
   "theorems": [
    "C30_partial",
    "C30_realm_partial",
    "C30_refuted",
    "C30_fold_refuted"
   ],
   "note": "False in general: REALM_DESTROY and folds of 1GB do not invalidate enough (C30_refuted, C30_fold_refuted). Proved for histories without these operations, and for entries that lead to realm memory for all histories without folds of large mappings of realm memory."
  },
  {
   "property": "C31",
   "status": "proved",
   "theorems": [
    "C31_registers"
   ],
   "note": "Registers of the MMU programmed for a REC are those of its realm."
  },
  {
   "property": "C32",
   "status": "proved",
   "theorems": [
    "C32_exists",
    "C32_index",
    "C32_address",
    "C32_rejects",
    "C32_injective",
    "C32_consecutive",
    "C32_descriptor",
    "C32_platform"
   ],
   "note": "For all bank tables and addresses; C32_platform links to the platform assumed by the rest of the model."
  },
  {
   "property": "C33",
   "status": "proved",
   "theorems": [
    "C33_new",
    "C51_success"
   ],
   "note": "acceptance is C51 with params_ok; geometry stated from the architecture's rules"
  },
  {
   "property": "C34",
   "status": "proved",
   "theorems": [
    "C34_monitor",
    "C34_translation",
    "C34_hardware"
   ],
   "note": "the monitor's walk, the architecture's walk and the hardware's walk with the programmed registers"
  },
  {
   "property": "C35",
   "status": "proved",
   "theorems": [
    "C35_commands",
    "C35_history",
    "C35_where",
    "C35_commands_partial",
    "C35_realm_partial",
    "C35_history_partial"
   ],
   "note": "For every command, RMI_REC_ENTER included, in every pair of reachable machines that differ only in realm memory, REC registers beyond what the last exit reported, measurements, attestation data and TLB contents: same outcome (also when the monitor stops), same reply and exit record, and the machines still differ in these only. C35_history extends it to histories in which realms run and exit in between. C35_where: the difference never lies in host memory, delegated granules or tables. The _partial theorems are the earlier forms without RMI_REC_ENTER, which do not need the second machine to be reachable. Timing and caches are not modelled."
  },
  {
   "property": "C36",
   "status": "proved",
   "theorems": [
    "C36_torn_down"
   ],
   "note": "A sequence of successful commands from every reachable state, found by induction on the number of granules in use; the other granules are equal afterwards. Blocks are split with two spare delegated granules, which is part of the statement."
  },
  {
   "property": "C37",
   "status": "proved",
   "theorems": [
    "C37_no_panic",
    "C37_alloc",
    "C37_disjoint",
    "C37_keeps",
    "C37_null",
    "C37_room",
    "C37_restored",
    "C37_verify",
    "C37_verify_free_refuted"
   ],
   "note": "Model of lib/allocator/src/memory_alloc.c, all of it. For every legal history of calls of any number of CPUs and heaps: no assertion fails, allocations are aligned, inside their buffer, pairwise apart, zero and large enough (n*size without overflow), never changed by other calls, NULL changes nothing and is returned only when no gap is large enough; with everything freed the heap is one block again. C37_verify_free_refuted: finding F24, the assertion of line 356 is inverted, so with MBEDTLS_MEMORY_VERIFY_FREE every free panics."
  },
  {
   "property": "C38",
   "status": "proved",
   "theorems": [
    "C38_used",
    "C38_step",
    "C51_success"
   ],
   "note": "vmid_reserve's acceptance is the part of C51 about REALM_CREATE"
  },
  {
   "property": "C39",
   "status": "proved",
   "theorems": [
    "C39_validation",
    "C39_control_bits"
   ],
   "note": "Exact characterisation of the validation for every interrupt controller configuration, and of the control bits taken over."
  },
  {
   "property": "C40",
   "status": "proved",
   "theorems": [
    "C40_emulation",
    "C40_not_requested"
   ],
   "note": "Completion of an emulated access, for every syndrome and host value."
  },
  {
   "property": "C41",
   "status": "proved",
   "theorems": [
    "C41_dispatch",
    "C41_unknown",
    "C41_total",
    "C41_names_once",
    "C41_operation",
    "C41_unknown_effect",
    "C41_results"
   ],
   "note": "Dispatch of all 2^64 identifiers against an independent table of the interface; unknown calls change nothing; registers without results are zero"
  },
  {
   "property": "C42",
   "status": "proved",
   "theorems": [
    "C42_prefix",
    "C42_complete",
    "C45_continue"
   ],
   "note": "delivery describes the calls of one REC since a token was started; that the library refuses to sign a finished token again is a hypothesis of dy_chunk, the library is not modelled. Chunk size and granule bound are in C45_continue."
  },
  {
   "property": "C43",
   "status": "proved",
   "theorems": [
    "C43_extend",
    "C43_read"
   ],
   "note": "c_hash is an arbitrary function"
  },
  {
   "property": "C44",
   "status": "proved",
   "theorems": [
    "C44_get"
   ],
   "note": "For all ranges and realms."
  },
  {
   "property": "C45",
   "status": "partial",
   "theorems": [
    "C45_set_partial",
    "C45_set_refuted",
    "C45_config",
    "C45_host",
    "C45_continue"
   ],
   "note": "IPA_STATE_SET looks at the low 32 bits of x3 only, so that the claim is refuted for the enumeration value; everything else is as claimed"
  },
  {
   "property": "C46",
   "status": "partial",
   "theorems": [
    "C46_partial",
    "C46_continue_partial",
    "C26_levels_refuted"
   ],
   "note": "Shown for every step that completes; a walk that ends at level -1 stops the monitor (C26_levels_refuted)"
  },
  {
   "property": "C47",
   "status": "partial",
   "theorems": [
    "C47_dram_partial",
    "C47_disjoint",
    "C47_consoles_partial",
    "C47_arguments",
    "C47_boot_partial",
    "C47_refuted",
    "C47_consoles_refuted"
   ],
   "note": "Exact for banks that do not wrap around the 64-bit address space and for console tables whose size does not overflow; refuted otherwise."
  },
  {
   "property": "C48",
   "status": "proved",
   "theorems": [
    "C48_boot",
    "C48_no_panic",
    "C48_host",
    "C48_other_cpus",
    "C48_realm",
    "C48_realm_has",
    "C48_realm_access"
   ],
   "note": "All sequences of host computations, commands, REC entries, realm SIMD instructions, RSI calls and exits on all CPUs, at byte level. Hardware is described by simd_hw; DMA, debug access and EL3 are not modelled."
  },
  {
   "property": "C49",
   "status": "partial",
   "theorems": [
    "C49_abort_partial",
    "C49_undefined",
    "C49_abort_refuted"
   ],
   "note": "Aborts and undefined instruction exceptions for every interrupted state except AArch32 EL0 with SCTLR2_EL1.EASE, for which the vector is wrong (C49_abort_refuted)."
  },
  {
   "property": "C50",
   "status": "proved",
   "theorems": [
    "C50_idle",
    "C50_running",
    "C50_commands",
    "C50_locks",
    "C26_partial"
   ],
   "note": "Slots of idle CPUs are empty, those of running ones are exactly the REC and its auxiliary granules; mapping a slot in use is a stop, excluded by C26_partial."
  },
  {
   "property": "C51",
   "status": "proved",
   "theorems": [
    "C51_success"
   ],
   "note": "14 of the commands; REC_CREATE, RTT_FOLD, RTT_INIT_RIPAS, RTT_SET_RIPAS, PSCI_COMPLETE are not in the claim"
  },
  {
   "property": "C52",
   "status": "proved",
   "theorems": [
    "C52_exit",
    "C52_entry"
   ],
   "note": "C52_exit: exceptions; C52_entry: REC_ENTER, including an entry that returns at once because a timer output changed."
  },
  {
   "property": "C53",
   "status": "proved",
   "theorems": [
    "C53_initial"
   ],
   "note": "Every field of the new REC that the model has."
  },
  {
   "property": "C54",
   "status": "proved",
   "theorems": [
    "C54_exit"
   ],
   "note": "SMC is the subject of C19, C42-C46; the exit record of C21."
  },
  {
   "property": "C55",
   "status": "proved",
   "theorems": [
    "xlat_tables_translate",
    "xlat_init_result",
    "xlat_size_refuted",
    "xlat_reject_changes_refuted"
   ],
   "note": "for address spaces whose size is a power of two; other sizes are accepted but mistranslated (xlat_size_refuted). A rejected list may have been changed (xlat_reject_changes_refuted)."
  },
  {
   "property": "C56",
   "status": "proved",
   "theorems": [
    "xlat_write_xor_execute"
   ],
   "note": "permissions in the descriptors; EL0 permissions are not covered by the claim"
  },
  {
   "property": "C57",
   "status": "partial",
   "theorems": [
    "xlat_no_alias_partial",
    "xlat_no_alias_refuted"
   ],
   "note": "false as stated: xlat_no_alias_refuted has an accepted list in which a later region encloses an earlier one; the partial theorem says that this is the only way"
  },
  {
   "property": "C58",
   "status": "proved",
   "theorems": [
    "xlat_map_effect",
    "xlat_unmap_effect",
    "xlat_map_unmap_succeed",
    "xlat_static_unchanged",
    "xlat_map_far_refuted"
   ],
   "note": "xlat_map_effect and xlat_unmap_effect give the effect on every address; xlat_map_unmap_succeed: both succeed when they should; xlat_static_unchanged: all other regions. The address has to be less than 2^32 entries from the start of the table; xlat_map_far_refuted shows that the code accepts wrong addresses beyond that. Blocks are mapped as a whole; TLB maintenance of a block is by its page, as in the code."
  },
  {
   "property": "C59",
   "status": "proved",
   "theorems": [
    "slot_buffers_refine"
   ],
   "note": "slot_buffers_refine: refinement of SpecSlots for all histories, with the translation of every upper address. The TLB is modelled by the address that is invalidated; barriers are not modelled."
  },
  {
   "property": "C60",
   "status": "partial",
   "theorems": [
    "el3_sign_ok_partial",
    "el3_signature_refuted",
    "el3_unanswered_refuted"
   ],
   "note": "Proved for schedules in which no context is wiped while an answer is written to it and, for the bytes of the signature, signatures are fetched by the CPU that runs the REC. Wrong otherwise: F30, F31."
  },
  {
   "property": "C61",
   "status": "partial",
   "theorems": [
    "el3_tickets_ok",
    "el3_sign_ok_partial",
    "el3_null_refuted"
   ],
   "note": "Tickets and cookies in every schedule; the rest in schedules in which no context is wiped while an answer is written to it. Wrong otherwise: F31."
  },
  {
   "property": "C62",
   "status": "partial",
   "theorems": [
    "el3_shared_free_partial",
    "el3_pull_error_refuted"
   ],
   "note": "Proved unless EL3 fails to hand out an answer; then wrong for ever: F29."
  },
  {
   "property": "C63",
   "status": "proved",
   "theorems": [
    "snprintf_safe"
   ],
   "note": "every format, argument list and buffer; idx does not wrap at 2^64"
  },
  {
   "property": "C64",
   "status": "partial",
   "theorems": [
    "printf_int_partial",
    "printf_str",
    "printf_hash_refuted",
    "printf_left_refuted",
    "printf_precision_refuted"
   ],
   "note": "proved for 64-bit arguments without '#', precision <= 31, no '-' with a precision, zero padding up to 32, and for strings; refuted outside (F33, F34)"
  },
  {
   "property": "C65",
   "status": "partial",
   "theorems": [
    "rsi_log_partial",
    "rsi_log_refuted"
   ],
   "note": "all function ids except 0xC40001A6, for which it is refuted (F32)"
  },
  {
   "property": "C66",
   "status": "partial",
   "theorems": [
    "pmu_host_partial",
    "pmu_host_refuted"
   ],
   "note": "all registers and the realm's counters always; the other counters if the realm selected one of its own; refuted otherwise (F35)"
  },
  {
   "property": "C67",
   "status": "proved",
   "theorems": [
    "pmu_realm_ok",
    "pmu_overflow_ok"
   ],
   "note": "any history, any hardware state in between"
  },
  {
   "property": "C68",
   "status": "partial",
   "theorems": [
    "pmu_defined_partial",
    "pmu_defined_refuted"
   ],
   "note": "proved for CPUs that never make the access undefined, refuted for the others (F36)"
  },
  {
   "property": "C69",
   "status": "proved",
   "theorems": [
    "memmove_ok",
    "memcpy_ok"
   ],
   "note": "memmove for all overlaps, memcpy where it is defined and a bit beyond"
  },
  {
   "property": "C70",
   "status": "proved",
   "theorems": [
    "memcmp_ok",
    "strcmp_ok",
    "strncmp_ok"
   ],
   "note": "sign of the result is the lexicographic order; no byte after the strings is read"
  },
  {
   "property": "C71",
   "status": "proved",
   "theorems": [
    "strlen_ok",
    "strnlen_ok",
    "strchr_ok",
    "strlcpy_ok"
   ],
   "note": "exact results and exact effect on memory"
  },
  {
   "property": "C72",
   "status": "partial",
   "theorems": [
    "plat_token_ok",
    "plat_token_safe_partial",
    "plat_token_wrap_refuted",
    "plat_token_status_refuted"
   ],
   "note": "Proved for an EL3 that serves a token, and safety for all answers with sane sizes and status; refuted without that (F38, F39)"
  },
  {
   "property": "C73",
   "status": "proved",
   "theorems": [
    "attest_boot_ok",
    "attest_key_once",
    "attest_key_wiped",
    "attest_key_size_refuted"
   ],
   "note": "All histories; that EL3's size is not checked is refuted separately (F40)"
  },
  {
   "property": "C74",
   "status": "proved",
   "theorems": [
    "cca_token_contents",
    "cca_token_no_assert",
    "cca_token_once"
   ],
   "note": "The CBOR library and the COSE header are modelled after their documentation; a signature is 96 bytes from outside."
  },
  {
   "property": "C75",
   "status": "proved",
   "theorems": [
    "cca_token_made",
    "cca_init_result",
    "cca_token_full",
    "cca_token_made_refuted"
   ],
   "note": "Refuted for platform tokens up to the accepted size in the default configuration (F41)."
  },
  {
   "property": "C76",
   "status": "proved",
   "theorems": [
    "cca_token_binds"
   ],
   "note": "Equal bytes, equal claims."
  },
  {
   "property": "C77",
   "status": "proved",
   "theorems": [
    "pauth_realm_keys",
    "pauth_rmm_keys",
    "pauth_boot_ok"
   ],
   "note": "One function a step; a REC runs on one CPU at a time, which is an enabling condition here; EL3 keeps the instruction key A of RMM while the host runs."
  },
  {
   "property": "C78",
   "status": "proved",
   "theorems": [
    "backtrace_no_fault",
    "backtrace_shows",
    "backtrace_corrupted"
   ],
   "note": "Removal of authentication codes is a parameter; translation is the same throughout."
  },
  {
   "property": "C79",
   "status": "proved",
   "theorems": [
    "plat_memory_map",
    "plat_guard_page",
    "plat_common_map",
    "plat_regions_fit",
    "plat_layout_accepted"
   ],
   "note": "For every layout that the setup accepts; the MMU is the translation of C55. UART driver and EL3 calls are not modelled."
  },
  {
   "property": "C80",
   "status": "partial",
   "theorems": [
    "plat_null_faults_partial",
    "plat_null_refuted"
   ],
   "note": "Proved when the manifest has a console outside of the first page; refuted without a console (F42)."
  },
  {
   "property": "C81",
   "status": "partial",
   "theorems": [
    "attest_init_ready",
    "attest_init_dit_partial",
    "attest_init_dit_refuted"
   ],
   "note": "Proved except that data independent timing stays enabled after a start that fails (F43, attest_init_dit_refuted)."
  },
  {
   "property": "C82",
   "status": "proved",
   "theorems": [
    "attest_rnd_seeds",
    "attest_rnd_isolated"
   ],
   "note": "For any generator; mbedTLS's HMAC_DRBG itself is a parameter."
  }
 ]
}