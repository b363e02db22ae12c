# A Rocq model of TF-RMM: design and trusted base

## 1. What is modelled

The model is in `rocq/theories/` (logical name `Verif`). It is a shallow
embedding: every C function is a total Gallina function with a comment that
cites file and lines. C integers are `N` (addresses, words) or `Z` (levels);
wrapping modulo 2^64 is written out wherever the code can wrap. A failed
assertion, a wait for a lock that its own CPU holds, a NULL or out-of-range
access and any other undefined behaviour is a distinct outcome (`Panic`,
`Deadlock`), never ignored.

### Files

| part | files | code |
|------|-------|------|
| bit fields, entry codec | `Bits`, `S2tte` | utils_def.h, s2tt_pvt_defs.h, s2tt.c |
| state and command language | `State`, `Granule` | granule.h, granule.c, granule_types.h, slot buffers, status.h, table walk of s2tt.c |
| host commands (RMI) | `RmiGranule`, `RmiRtt`, `RmiRealm`, `RmiRec`, `Psci`, `Measure`, `RecFields` | runtime/rmi/\*.c, vmid.c, rim.c, completion part of runtime/rsi/psci.c |
| realm execution | `Gic`, `Esr`, `Rsi`, `RecRun` | gic.c, esr.h, inject_exp.c, runtime/rmi/run.c, runtime/core/{exit,run,sysregs,timers}.c, runtime/rsi/\*.c |
| whole system | `Machine` | handler.c (command table); hardware, host and realm as nondeterministic actors |
| programs one action at a time | `Act` | as above |
| boot: granule map and manifest | `Platform` | plat/common, plat/arm lib, rmm_el3_ifc_manifest.c, granule.c:addr_to_granule |
| command dispatch | `Dispatch` | runtime/core/handler.c, smc numbers of lib/smc |
| packed granule descriptors | `Desc` | granule.h accessors, bit locks |
| SIMD context switch | `Simd` | lib/arch/src/simd.c and its callers in exit.c, run.c, handler.c |
| heap allocator | `Heap` | lib/allocator/src/memory_alloc.c |
| stage 1 tables of the monitor, slot buffers | `Xlat` | lib/xlat/src/{xlat_tables_core,xlat_contexts,xlat_tables_utils,xlat_tables_arch,xlat_high_va}.c, lib/slot_buf/src/buffer.c (map and unmap) |
| signing of tokens by EL3 | `El3Sign` | lib/attestation/src/attestation_el3_token_sign.c, lib/t_cose/src/t_cose_el3_token_sign.c, the parts of attestation_token.c and runtime/rsi/realm_attest.c that use them, one step per access to shared state |
| formatted output, log of realm calls | `Printf` | lib/libc/src/printf.c (without floating point), runtime/rsi/logger.c |
| switch of the performance counters | `Pmu` | lib/arch/src/pmu.c, its callers in runtime/core/run.c, rec.c:init_rec_sysregs; the registers after the Arm ARM |
| functions on memory and strings | `Libc` | lib/libc/src/{memcpy,memmove,memcmp,strlen,strnlen,strcmp,strncmp,strchr,strlcpy}.c over a partial memory |
| attestation key and platform token | `PlatToken` | lib/attestation/src/attestation_key.c and the calls to EL3 in rmm_el3_runtime.c; EL3 is a list of answers, the crypto library a record of functions |
| contents of attestation tokens | `Cca` | lib/attestation/src/attestation_token.c down to the bytes; QCBOR and the t_cose header are modelled after their documentation and RFC 8949/9052, the signature is 96 bytes from outside; `SpecCbor` is a CBOR decoder written from RFC 8949, independent of the encoder |
| pointer authentication keys | `Pauth` | lib/arch/src/pauth.c and its callers in runtime/core/run.c, one function a step, any interleaving of CPUs; EL3 keeps the instruction key A of RMM while the host runs |
| stack trace of the crash handler | `Backtrace` | lib/debug/src/backtrace.c over a memory in which loads can fault; removal of authentication codes is a parameter |
| memory map at run time | `PlatMap` | plat/common/src/plat_common_init.c:plat_cmn_setup and the console's region of plat/arm/src/arm_setup.c:plat_setup, on top of `Xlat` |
| start of attestation, random numbers | `AttestInit` | lib/attestation/src/attestation_utils.c, attestation_rnd.c; mbedTLS's generator is a parameter, the other steps of the start are their outcomes |
| architecture, independent of the code | `Arch`, `Mmu` | none: Arm ARM D8.2, D8.3, VTTBR_EL2, VTCR_EL2 |
| specification vocabularies, independent of the code | `Spec`, `SpecCodec`, `SpecStep`, `SpecExit`, `SpecRec`, `SpecSafe`, `SpecRsi`, `SpecRun`, `SpecTables`, `SpecRim`, `SpecTear`, `SpecSimd`, `SpecHeap`, `SpecTlb`, ... | none |
| statements | `Prop_*` | none: theorems, one-line proofs, examples, `Print Assumptions` |
| concrete histories for the examples | `Demo`, `Demo2`, `Demo3` | none |
| proofs | all other files | none |

Theorem statements use definitions of the model, of `Spec*` and (in examples)
of `Demo*` only, none of the proof files.

### The state machine

The state (`Machine.mstate`) holds, for every granule address, the granule's
state, reference count and content (512 words, a realm descriptor or a REC);
the VMID bitmap; the TLB as a list of cached stage 2 leaf entries tagged with a
VMID; what each CPU executes; and the attestation contexts of RECs.

`step : cfg -> hw -> mstate -> op -> outcome` does one operation: an RMI command
(`OCmd`), the entry of a REC (`OEnter`), the exit of a running REC for any
reason the hardware may report (`OExit`), a change of the registers of a running
REC by the realm (`ORegs`), a load or store of a realm through the MMU (`OLoad`,
`OStore`), a fill of the TLB (`OFill`), and the use of memory by the host and of
auxiliary granules. A history is a list of operations; `reachable c h m` means
that `m` is the result of a history from boot. All theorems quantify over the
platform `cfg` (granule map, feature register, hash functions, ...) and the
hardware `hw`, subject to `cfg_ok`.

An RMI command and the handling of an exit are one step each; other CPUs' steps
come between them in any order. That their locking makes this adequate is the
subject of the concurrency part (C23, C24).

### Simplifications

Each is also stated in the comment of the definition.

* A granule descriptor is named by the granule's physical address.
* Caches and memory ordering are not modelled; memory is sequentially consistent.
* Hash functions are parameters (arbitrary functions), signing and the content of
  tokens are parameters of the operations.
* Answers of EL3 are arguments of the operations.
* Assembly code, floating point registers and trap configuration registers are
  not part of `Machine`.
* Assertions are checked (debug build); a release build skips them.

Not modelled at all: boot code, EL3, the C library except for printf and the
functions on memory and strings, mbedTLS and QCBOR internals,
drivers, console.

### Assumptions about the environment

* `cfg_ok`: addresses of granules are below 2^52, page aligned; the feature
  register describes IPA sizes the architecture has.
* `op_ok`: the root tables given to REALM_CREATE are aligned to their total size
  and below 2^48 without LPA2 (the monitor checks neither, finding F9); a token
  created by the platform fits its buffer; an SError exit has a syndrome of the
  SError class.

## 2. How the properties are proved

* `Inv` (file `Inv`) is the invariant of the monitor's state: a ghost map says
  which realm owns each table, at which level, and what each entry means; tables,
  reference counts, granule states, VMIDs and RECs agree with it. `MInv` adds the
  running CPUs and TLB.
* Every command is executed symbolically (`Wp`, `Cmd*`): its effect is a list of
  labels (`Effects`), each of which preserves `Inv`, or it fails for a stated
  reason (`CmdAll.cmd_eff`).
* `MStep` extends this to all operations; reachable states satisfy `MInv` by
  induction over the history.
* The theorems in `Prop_*` are consequences, stated in the vocabularies `Spec*`:
  pages and translations are read by the architecture's walk (`Arch`), not by the
  monitor's functions.
* Where the code violates a property the violation is a theorem (`..._refuted`)
  with an explicit history, and the strongest variant found true is proved beside
  it (suffix `_partial`).
* Beside each theorem an `Example` shows a concrete case of its hypotheses on the
  history of `Demo` (two realms, tables of three levels, data, unprotected memory,
  a REC that runs).

Per property:

* C01-C04, C06, C07, C16-C18, C31 (`Prop_Own`): consequences of the invariant.
* C05, C08, C09, C13, C15, C17, C18 (`Prop_Step`): what one step can do.
* C10, C11, C12, C29 (`Prop_Page`): what a realm has at a page before and after a
  step.
* C14 (`Prop_Rim`): the measurement of a realm is compared with a log of the
  commands of the history that succeeded, by induction over the history.
* C19, C20, C21 (`Prop_Rec`): entry and exit of RECs.
* C22 (`Prop_S2tte`): codec laws for all addresses.
* C23 (`Prop_Desc`): interleavings of the atomic accesses to descriptors; the
  abstract descriptor (lock, state, count) is simulated by the packed word.
* C25, C26, C50 (`Prop_Safe`): what can stop the monitor; locks and slots.
* C27, C28, C33, C34, C38, C51 (`Prop_Tables`): single entries, parameters,
  VMIDs, exact conditions of success.
* C24 (`Prop_Conc`): `Conc` interleaves the actions of any number of CPUs that handle
  commands; `Disc` proves of every command, whatever its reads deliver, that it releases what
  it holds, writes under the lock and ends with no lock. From that: mutual exclusion, writes
  under the lock, release of all locks, and no cycle of waiting CPUs among the commands that
  lock only granules named by the host. Executions in which RMI_REC_CREATE releases a lock it
  does not hold are excluded (F1, `C24_refuted`). Missing: cycles that involve commands which
  walk tables or follow pointers of descriptors; RMI_REC_ENTER is only an environment step.
* C30: TLB entries that are still cached and the tables. A CPU may put any translation its
  REC can use into the TLB at any time (`OFill`). Invariant over histories: on every page of a cached
  block the tables of the realm with this VMID lead to a descriptor of the same or a later level that
  says the same, so that an invalidation of the first page of an entry drops all that was
  cached of it. False in general (F3, F8); proved for histories without the operations of F3 and F8
  (`C30_partial`) and, for entries that lead to realm memory, for histories without folds of
  large mappings of realm memory (`C30_realm_partial`).
* C32, C47 (`Prop_Platform`): the bank table given by EL3, granule numbers and
  addresses, for all tables.
* C37 (`Prop_Heap`): the header lists of the heaps are a partition of each buffer
  into free and used blocks, by induction over the calls.
* C41 (`Prop_Dispatch`): an independent table of the calls against the handlers.
* C48 (`Prop_Simd`): who owns the contents of the vector registers, per CPU; an
  invariant over all sequences of host, monitor and realm actions.
* C35 (`Prop_Agree`, `Prop_Agree2`): a relational program logic (`Ni`) for two runs of a
  command on states that agree except in realm memory, registers, measurements,
  attestation data and TLBs (`SpecAgree`); its rules only let a program read what is public
  or known to agree. RMI_REC_ENTER and the exits are compared through their exact outcomes
  (`NiEnter`, `NiExit`): of a REC that does not execute, the host knows what its last exit
  told (`rec_told` in `SpecAgree2`). Two histories in which the host does the same and the
  returning RECs make the same known give the same replies; when one machine stops, the
  other does.
* C36 (`Prop_Tear`): a tear-down sequence, by induction over the tree of tables.
* C39, C40, C49 (`Prop_Exit`): what the host supplies at entry, emulated accesses,
  injected exceptions.
* C42-C46 (`Prop_Rsi`): services for realms.
* C19 (PSCI calls), C52, C53, C54 (`Prop_Run`): start of a REC, exceptions,
  interrupts and timers, by cases over the exit handler.
* C55-C57 (`Prop_Xlat`): the tables of the monitor are described by a function that gives each
  table its height and start (`XlatTree.tree`); the loop that maps a region is proved by induction
  over heights and entries (`XlatMap`), the list of regions by induction (`XlatInit`), and the
  result is compared with an independent model of the MMU's walk (`SpecXlat.s1_translate`).
* C58, C59 (`Prop_XlatDyn`): an invariant of all memories that mapping and unmapping on demand
  can reach (`XlatDyn.good`: the tree of tables, and bit 55 of the entry of an address says
  whether the address is mapped on demand), with the exact effect of both functions on every
  address (`XlatDyn2`).  The slot buffers are proved to refine a map from slots to granules
  (`SpecSlots`, `XlatSlots`) by simulation, by induction over the calls.

* C60-C62 (`Prop_El3Sign`): any number of CPUs, RECs and requests, one step of a handler at a
  time.  Two invariants: one of every schedule (tickets, requests at EL3, answers in transit),
  one of the schedules in which no context is wiped while an answer is written to it (locks,
  what a context says about its request).  The refutations are schedules.  Assumed: EL3 answers
  only open requests, once each; t_cose signs in place in the token buffer.
* C63-C65 (`Prop_Printf`): every directive is proved to put a text that depends on the format and
  the arguments only (`PrintfFacts.emit`), by induction over the format; the digits of a number
  are compared with an independent reading of numerals (`SpecPrintf.value`), and the line of the
  log is put together from the texts of its parts.
* C66-C68 (`Prop_Pmu`): the exact effect of saving and restoring on every register
  (`PmuFacts.save_spec`, `restore_spec`), an invariant of the saved states of RECs (the bits of
  the masks belong to the realm's counters), by induction over histories of host and realms.
* C69-C71 (`Prop_Libc`): induction on the length or on the string (`LibcFacts`); accesses outside of
  the objects end in `Bad`, so that the theorems also say what is not read.
* C72-C73 (`Prop_PlatToken`): induction on the answers of EL3 with the token so far as the invariant
  (`PlatTokenFacts.hunks_gen`, `hunks_first`, `hunks_rest`); an invariant of the histories for the
  key.  C72 is partial: for any EL3 only with sizes that do not wrap.
* C74-C76 (`Prop_Cca`): the encoder's stack of open containers is flattened to a concatenation of items
  (`CcaFacts.adds_eq`, `close_eq`, `create_ok`), which the decoder of `SpecCbor` reads back with any
  bytes after it (`dec_map`, `dec_array`, `decs_concat`); an invariant of the histories relates the
  context to the last request; equal tokens decode to equal items.
* C77 (`Prop_Pauth`): an invariant of all interleavings (`PauthFacts.Inv`) against a specification that
  folds over the history and looks only at the writes of the realm (`left_by`) or the boots of the CPU
  (`drawn`).
* C78 (`Prop_Backtrace`): induction on the depth, for any memory; an inductive definition of intact
  stacks (`SpecBacktrace.stack`) for what is shown.
* C79, C80 (`Prop_PlatMap`): what the common regions ask for equals `SpecPlatMap.image_map`, written from the
  addresses of the sections alone; the order that the library checks makes the regions disjoint; the
  translation is that of C55. C80 is false without a console (F42).
* C81, C82 (`Prop_AttestInit`): case analysis over the outcomes; induction over the CPUs and over the
  requests, for any generator. C81 is partial: timing (F43).

`MANIFEST.json` says which of them are proved, partial or open.

## 3. Trusted base

* The kernel of Coq 8.16.1, including `vm_compute` (finite computations in
  examples and refutations).
* `Print Assumptions` at the end of each `Prop_*` file covers all theorems of the
  file; the answer is "Closed under the global context" for each: no axiom is
  used.
* Loading the standard library's `ssreflect` support brings the module type
  fields `Coq.ssr.ssrunder.Under_rel.*` into the environment; a checker of the
  whole environment lists them. No theorem depends on them.
* The transcription of the C code into Gallina.
* The specification files: `Arch`, `Mmu`, `Spec*`.

## 4. How to read the log of seeded faults

`seeded/LOG.jsonl`: `first_failing_proofs` is what the build of the edited copy reported. Coq stops at the
first proof that fails in a file, so a failing lemma does not by itself show that every theorem that
uses it is false of the edited program. In entries with a `note` (M246 to M313) `theorems_failed` lists the
claims that were seen to be false by evaluating them on concrete cases of the edited model. In all
other entries it was assigned by hand from the first failing proof and the edit: there it names the
theorems that no longer build and whose claim the edit was judged to break, which was not evaluated one by one.

## 5. Findings

Found while modelling. Those with a theorem are marked with its name.

* F1 `smc_rec_create` unlocks auxiliary granules that are not locked, rec.c:290
  (`C25_refuted`, `C26_rec_create_refuted`). If another CPU holds the lock of such a
  granule it is taken away from that CPU (`C24_refuted`).
* F2 RTT_MAP_UNPROTECTED and RTT_UNMAP_UNPROTECTED at a level above the start level
  violate an assertion of the walk, rtt.c:57, s2tt.c:323 (`C26_map_refuted`).
* F3 TLB invalidation after folds and destroys of 1GB entries covers 2MB, rtt.c:463,588,
  s2tt.c:57-113 (`C30_fold_refuted`). With memory of the realm the same leads to an entry that
  survives RTT_SET_RIPAS of the folded block and the release of its pages.
* F4 `s2tt_skip_non_live_entries` scans 512 entries even if the table has fewer
  that translate addresses of the realm; the address to go on from may lie
  outside of its address space (`C28_example`).
* F5 PSCI calls are dispatched on 32 bits of x0 but completed on 64, psci.c:388
  (`C26_psci_refuted`).
* F6 A walk that ends at level -1 violates an assertion, exit.c:180
  (`C26_levels_refuted`).
* F7 RSI_IPA_STATE_SET truncates its enumeration argument to 32 bits
  (`C45_set_refuted`).
* F8 REALM_DESTROY frees the VMID without invalidation of the TLB although the root
  table may hold mappings of unprotected memory, realm.c:533 (`C30_refuted`).
* F9 REALM_CREATE accepts concatenated root tables that are not aligned to their
  total size, and roots above 2^48 without LPA2, realm.c:393, rec.c:114.
* F10 `init_rec_sysregs` reads `pmu_enabled` before it is set, rec.c:27,357.
* F11 A store without valid syndrome to an unprotected address discloses the low
  byte of x0 to the host, exit.c:230-232 (`C21_store_refuted`).
* F12 PSCI_COMPLETE with status DENIED for a CPU that is on changes the REC although
  it fails (`C09_refuted`).
* F13 A realm that writes ICC_ASGI1R_EL1 or another trapped ICC register that is not
  expected stops the monitor (`C26_icc_refuted`).
* F14 The vector of an exception injected while AArch32 EL0 executes with
  SCTLR2_EL1.EASE is wrong (`C49_abort_refuted`).
* F15 RSI_ATTESTATION_TOKEN_CONTINUE returns an argument error when the token cannot
  be created although the arguments are right.
* F16 A host call completed while its page became EMPTY leaves the call number in
  x0.
* F17 REC_ENTER returns an argument error when the exit record cannot be written
  although the REC has run.
* F18 The pending virtual SError is not kept across exits.
* F19 PSCI_FEATURES does not list PSCI_VERSION.
* F20 A REC that runs continues after its realm has executed SYSTEM_OFF on another
  CPU, until its next exit.
* F21 memory_alloc.c:355-357 asserts the opposite of what its comment says
  (`C37_verify_free_refuted`).
* F22 The boot manifest may list memory banks that wrap around 2^64 and overlap,
  rmm_el3_ifc_manifest.c:155 (`C47_refuted`).
* F23 The size of the console table in the manifest overflows,
  rmm_el3_ifc_manifest.c:228 (`C47_consoles_refuted`).
* F24 `validate_mmap_regions` does not find that a region encloses an earlier one in
  physical memory, xlat_contexts.c:147-162: the same page can be mapped executable and
  writable (`xlat_no_alias_refuted`).
* F25 `xlat_ctx_cfg_init` accepts a size of the address space that is not a power of two,
  but TxSZ is the number of its trailing zeros, xlat_tables_arch.c
  (`xlat_size_refuted`).
* F26 `xlat_ctx_init` never returns ENOMEM: an assertion fails when there are too few
  tables (`xlat_init_result`).
* F27 `xlat_ctx_cfg_init` changes the caller's regions before it rejects them,
  xlat_contexts.c:85 (`xlat_reject_changes_refuted`).
* F28 `xlat_get_tte_ptr` truncates the entry number to 32 bits before it compares it with the
  number of entries, xlat_tables_utils.c:513: an address 2^44 above a last-level table is
  accepted and another page is mapped (`xlat_map_far_refuted`).  No caller in the code passes
  such an address.
* F29 When EL3 fails to hand out a signature, attestation_el3_token_sign.c:118-122, the lock of
  the buffer shared with EL3 is not released: signing stops for ever on all CPUs, and so does
  every other use of the buffer (`el3_pull_error_refuted`).
* F30 A signature for another REC is written through `sig_buffer`, an address in the window in
  which a CPU maps the auxiliary granules of the REC that it runs: it ends in the token of the
  wrong REC, possibly of another realm (`el3_signature_refuted`).  The comment in
  realm_attest.c:243-249 says that such pointers have to be recalculated; this one is not.
* F31 `attest_token_ctx_init` wipes the context with its lock without taking the lock,
  attestation_token.c:385, while another CPU may write an answer to it: a write through a NULL
  pointer (`el3_null_refuted`), or a token that is taken as signed although EL3 never answered
  (`el3_unanswered_refuted`).
* F32 The name of SMC_RSI_RDEV_GET_INTERFACE_REPORT has 33 characters, the column of the log 29,
  logger.c:15: when a realm makes this call (0xC40001A6) the assertion logger.c:119 fails and
  the monitor stops, in debug builds with the default log levels (`rsi_log_refuted`).  Without
  assertions the size of the memset that follows wraps.
* F33 `%#Nx` of a value with exactly N digits loses its two highest digits, printf.c:281-286
  (`printf_hash_refuted`).
* F34 With the flag `-` the precision of an integer is ignored, printf.c:268
  (`printf_left_refuted`), and a precision above 32 is cut (`printf_precision_refuted`).
  Also seen: a format that ends with `%` is read beyond its end, `%b` cuts values to 32 digits.
* F35 `pmu_save_state` and `pmu_restore_state` read and write PMXEVCNTR_EL0 and PMXEVTYPER_EL0 at
  EL2, where they reach all counters, with the realm's PMSELR_EL0, pmu.c:45-46 and 105-106.  A
  realm that selects a counter of the host resets it, at its next entry, to the value at the
  end of its last run (`pmu_host_refuted`).  The two registers hold no state of their own: they
  need not be switched at all.
* F36 The same reads with a selected counter that does not exist are constrained unpredictable
  and may be undefined: then a realm stops the monitor (`pmu_defined_refuted`).
* F37 `init_rec_sysregs` looks at `realm_info.pmu_enabled` before it is set, rec.c:27, 345 and 357:
  PMCR_EL0 of a REC is never PMCR_EL0_INIT_RESET.  Without effect on realms, whose counters
  start at 0 anyway; and with PMCR_EL0_INIT_RESET the write at EL2 would clear the host's
  counters too.
* F38 The check that the platform token fits, attestation_key.c:305, adds two sizes from EL3 that can
  wrap: with token_hunk_len + remaining_len = 2^64 it passes, and RMM copies beyond both buffers.
  With ATTEST_PLAT_TOKEN_SIZE above 4096 a piece larger than the shared buffer passes as well.
  EL3 is trusted, so that this is a check that does not do what it is there for
  (`plat_token_wrap_refuted`).
* F39 `rmm_el3_ifc_get_platform_token` tests x0 as 64 bits and returns it as an int: an error whose low
  32 bits are 0 reaches the caller as success, which then takes the last piece once more, or fails
  its assertion if there is none (`plat_token_status_refuted`).  The same in the call for the key
  leaves attest_key_size without a value.
* F40 `attest_init_realm_attestation_key` uses the size of the key that EL3 returns without a check, to
  clear the shared buffer and, where EL3 signs, to copy into a buffer of 129 bytes
  (`attest_key_size_refuted`).
* F41 `lib/attestation/CMakeLists.txt:28-31` only checks that the buffer of the CCA token is not smaller
  than the largest platform token (both 4096 bytes by default). The CCA token contains the platform
  token, the realm token (up to 772 bytes) and up to 16 bytes of heads, so with a platform token of more
  than 3308 bytes, which RMM accepts at boot, the token may not fit, and with one of 4096 bytes it never
  does: every RSI_ATTESTATION_TOKEN_CONTINUE returns RSI_ERROR_INPUT after the signature is made
  (`cca_token_made_refuted`, `cca_token_full`).
* F42 `plat/arm/src/arm_setup.c:17-20, 60-103`: when the manifest has no console, the region that was meant
  for its registers keeps the address 0 and is mapped all the same: the page at virtual address 0 is
  writable device memory at physical address 0, and an access through a null pointer does not fault
  (`plat_null_refuted`).
* F43 `lib/attestation/src/attestation_utils.c:58-117`: when a step of attestation_init fails, data
  independent timing, enabled at its start, is not disabled, as it is after a success; the caller only
  logs a warning and goes on (`attest_init_dit_refuted`). This costs speed, not secrecy.
