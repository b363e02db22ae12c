(** Boot: validation of what EL3 hands over and the table of DRAM banks that
    translates granule addresses to indices of granule descriptors.

    Memory before the MMU is on is a function [ld] from addresses to words; the
    words are truncated to 64 bits when they are read.  Cache maintenance and the
    flags that tell whether the manifest was processed are left out: the functions
    are called in the order in which plat/arm/src/arm_setup.c calls them. *)
From Coq Require Import NArith ZArith List Bool.
From Verif Require Import Bits.
Import ListNotations.
Local Open Scope N_scope.

(** How a function of the boot code ends: it returns, it reports an error code to
    EL3, an assertion fails, or (never, as is proved) a loop does not end *)
Inductive bres (A : Type) := BOk (a : A) | BFail (code : Z) | BPanic | BLoop.
Arguments BOk {A}. Arguments BFail {A}. Arguments BPanic {A}. Arguments BLoop {A}.

Definition bbind {A B} (x : bres A) (f : A -> bres B) : bres B :=
  match x with BOk a => f a | BFail e => BFail e | BPanic => BPanic | BLoop => BLoop end.
Definition bassert (b : bool) : bres unit := if b then BOk tt else BPanic.
Notation "'blet' x := p 'in' q" := (bbind p (fun x => q)) (at level 200, x name, p at level 100, q at level 200).

(** What the build fixes: MAX_CPUS, PLAT_ARM_MAX_DRAM_BANKS, RMM_MAX_GRANULES, and
    what the CPU tells: arch_feat_get_pa_width *)
Record plat := mkPlat { p_max_cpus : N; p_max_banks : N; p_max_granules : N; p_pa_width : N }.

Definition UINT64_MAX : N := 2 ^ 64 - 1.
(** lib/rmm_el3_ifc/include/rmm_el3_ifc.h:55-62 *)
Definition E_RMM_BOOT_VERSION_NOT_VALID : Z := -2.
Definition E_RMM_BOOT_CPUS_OUT_OF_RANGE : Z := -3.
Definition E_RMM_BOOT_CPU_ID_OUT_OF_RANGE : Z := -4.
Definition E_RMM_BOOT_INVALID_SHARED_BUFFER : Z := -5.
Definition E_RMM_BOOT_MANIFEST_VERSION_NOT_SUPPORTED : Z := -6.
Definition E_RMM_BOOT_MANIFEST_DATA_ERROR : Z := -7.

(** rmm_el3_ifc.h:82-85: RMM_EL3_IFC_GET_VERS_MAJOR, RMM_EL3_IFC_GET_VERS_MINOR *)
Definition vers_major (v : N) : N := N.land (N.shiftr v 16) 32767.
Definition vers_minor (v : N) : N := N.land v 65535.
(** rmm_el3_ifc.h:106-108 and 134-136: IS_RMM_EL3_IFC_COMPATIBLE and
    IS_RMM_EL3_MANIFEST_COMPATIBLE; both expect 0.3 *)
Definition vers_compatible (v : N) : bool := (vers_major v =? 0) && (3 <=? vers_minor v).
(** rmm_el3_ifc.h:87-88: RMM_EL3_IFC_MAKE_VERSION *)
Definition make_version (ma mi : N) : N := N.lor (N.shiftl (N.land ma 32767) 16) (N.land mi 65535).

(** A 64-bit load *)
Definition load64 (ld : N -> N) (a : N) : N := wrap64 (ld (wrap64 a)).

(** rmm_el3_ifc.h:282-289: struct rmm_core_manifest (with ns_dram_info 276-280 and
    console_list 263-267) *)
Record manifest := mkManifest {
  mf_version : N;
  mf_plat_data : N;
  mf_num_banks : N; mf_banks : N; mf_dram_sum : N;
  mf_num_consoles : N; mf_consoles : N; mf_console_sum : N
}.
(** rmm_el3_ifc_manifest.c:37-39: the copy of the manifest *)
Definition read_manifest (ld : N -> N) (p : N) : manifest :=
  mkManifest (load64 ld p mod 2 ^ 32) (load64 ld (p + 8)) (load64 ld (p + 16)) (load64 ld (p + 24))
    (load64 ld (p + 32)) (load64 ld (p + 40)) (load64 ld (p + 48)) (load64 ld (p + 56)).

(** rmm_el3_ifc_manifest.c:28-54: rmm_el3_ifc_process_boot_manifest *)
Definition process_boot_manifest (ld : N -> N) (shared : N) : bres manifest :=
  let mf := read_manifest ld shared in
  if vers_compatible (mf_version mf) then BOk mf else BFail E_RMM_BOOT_MANIFEST_VERSION_NOT_SUPPORTED.

(** lib/rmm_el3_ifc/src/rmm_el3_ifc.c:43-110: rmm_el3_ifc_init, first call.  The
    address at which the buffer will be mapped is not an input of EL3: the
    assertions about it (47-48) are left out. *)
Definition el3_ifc_init (p : plat) (ld : N -> N) (x0 x1 x2 x3 : N) : bres manifest :=
  if negb (vers_compatible x1) then BFail E_RMM_BOOT_VERSION_NOT_VALID
  else if p_max_cpus p <? x2 then BFail E_RMM_BOOT_CPUS_OUT_OF_RANGE
  else if x2 <=? x0 then BFail E_RMM_BOOT_CPU_ID_OUT_OF_RANGE
  else if (x3 =? 0) || negb (N.land x3 4095 =? 0) then BFail E_RMM_BOOT_INVALID_SHARED_BUFFER
  else process_boot_manifest ld x3.

(** rmm_el3_ifc_manifest.c:84-86: the loop of checksum_calc over [n] words *)
Fixpoint sum_words (ld : N -> N) (buffer : N) (n : nat) (sum : N) : N :=
  match n with
  | O => sum
  | S n => sum_words ld (wrap64 (buffer + 8)) n (wrap64 (sum + load64 ld buffer))
  end.
(** rmm_el3_ifc_manifest.c:77-89: checksum_calc *)
Definition checksum_calc (ld : N -> N) (buffer size : N) : bres N :=
  blet _ := bassert (N.land buffer 7 =? 0) in
  blet _ := bassert (N.land size 7 =? 0) in
  BOk (sum_words ld buffer (N.to_nat (size / 8)) 0).

(** rmm_el3_ifc_manifest.c:134-171: the loop over the banks; [None] is the data
    error, the result is the number of granules *)
Fixpoint check_banks (w : N) (ld : N -> N) (n : nat) (bank_ptr end_ num_granules : N) : option N :=
  match n with
  | O => Some num_granules
  | S n =>
    let size := load64 ld (bank_ptr + 8) in
    let start := load64 ld bank_ptr in
    let max_pa_size := N.shiftl 1 w in
    if (start =? 0) || (size =? 0) || negb (N.land (N.lor start size) 4095 =? 0) then None
    else if start <? end_ then None
    else
      let end' := wrap64 (start + size + UINT64_MAX) in
      if max_pa_size <=? end' then None
      else check_banks w ld n (wrap64 (bank_ptr + 16)) end' (wrap64 (num_granules + size / 4096))
  end.

(** rmm_el3_ifc_manifest.c:96-191: rmm_el3_ifc_get_dram_data_validated_pa.  The
    result is the validated number of banks and pointer to them. *)
Definition get_dram_data_validated (p : plat) (ld : N -> N) (mf : manifest) : bres (N * N) :=
  if mf_version mf <? make_version 0 2 then BFail E_RMM_BOOT_MANIFEST_VERSION_NOT_SUPPORTED
  else
    let num_banks := mf_num_banks mf in
    let bank_ptr := mf_banks mf in
    if (num_banks =? 0) || (p_max_banks p <? num_banks) || (bank_ptr =? 0) then BFail E_RMM_BOOT_MANIFEST_DATA_ERROR
    else
      let checksum := wrap64 (num_banks + bank_ptr + mf_dram_sum mf) in
      match check_banks (p_pa_width p) ld (N.to_nat num_banks) bank_ptr 0 0 with
      | None => BFail E_RMM_BOOT_MANIFEST_DATA_ERROR
      | Some num_granules =>
        blet s := checksum_calc ld bank_ptr (wrap64 (16 * num_banks)) in
        if negb (wrap64 (checksum + s) =? 0) then BFail E_RMM_BOOT_MANIFEST_DATA_ERROR
        else if p_max_granules p <? num_granules then BFail E_RMM_BOOT_MANIFEST_DATA_ERROR
        else BOk (num_banks, bank_ptr)
      end.

(** rmm_el3_ifc_manifest.c:197-239: rmm_el3_ifc_get_console_list_pa *)
Definition get_console_list (ld : N -> N) (mf : manifest) : bres (N * N) :=
  if mf_version mf <? make_version 0 3 then BFail E_RMM_BOOT_MANIFEST_VERSION_NOT_SUPPORTED
  else
    let num_consoles := mf_num_consoles mf in
    let console_ptr := mf_consoles mf in
    let checksum := wrap64 (num_consoles + console_ptr + mf_console_sum mf) in
    blet s := checksum_calc ld console_ptr (wrap64 (48 * num_consoles)) in
    if wrap64 (checksum + s) =? 0 then BOk (num_consoles, console_ptr) else BFail E_RMM_BOOT_MANIFEST_DATA_ERROR.

(** plat/arm/src/include/arm_dram.h:14-26: struct arm_dram_bank, arm_dram_layout;
    the array holds the banks in use *)
Record bank := mkBank { b_base : N; b_size : N; b_start : N }.
Record layout := mkLayout { l_granules : N; l_banks : list bank }.

(** plat/arm/src/arm_memory.c:29-39: the loop of arm_set_dram_layout *)
Fixpoint copy_banks (ld : N -> N) (n : nat) (bank_ptr num_granules : N) : list bank * N :=
  match n with
  | O => ([], num_granules)
  | S n =>
    let base := load64 ld bank_ptr in
    let size := load64 ld (bank_ptr + 8) in
    let (bs, k) := copy_banks ld n (wrap64 (bank_ptr + 16)) (wrap64 (num_granules + size / 4096)) in
    (mkBank base size num_granules :: bs, k)
  end.
(** plat/arm/src/arm_memory.c:11-47: arm_set_dram_layout *)
Definition set_dram_layout (p : plat) (ld : N -> N) (num_banks bank_ptr : N) : bres layout :=
  blet _ := bassert (0 <? num_banks) in
  blet _ := bassert (num_banks <=? p_max_banks p) in
  let (bs, num_granules) := copy_banks ld (N.to_nat num_banks) bank_ptr 0 in
  blet _ := bassert (num_granules <=? p_max_granules p) in
  BOk (mkLayout num_granules bs).

(** The part of plat/arm/src/arm_setup.c:55-126 that reads the manifest (the console
    driver and the monitor's own tables are left out) *)
Definition boot (p : plat) (ld : N -> N) (x0 x1 x2 x3 : N) : bres layout :=
  blet mf := el3_ifc_init p ld x0 x1 x2 x3 in
  blet _ := get_console_list ld mf in
  blet d := get_dram_data_validated p ld mf in
  set_dram_layout p ld (fst d) (snd d).

(** plat/arm/src/arm_granule.c:37-58: the search of plat_granule_addr_to_idx.  The
    number of iterations is bounded by [fuel]; running out is the outcome [BLoop]. *)
Fixpoint search_addr (fuel : nat) (p : plat) (bs : list bank) (l r addr : N) : bres N :=
  match fuel with
  | O => BLoop
  | S fuel =>
    if r <? l then BOk UINT64_MAX
    else
      let i := l + (r - l) / 2 in
      if negb (i <? p_max_banks p) then BPanic
      else match nth_error bs (N.to_nat i) with
      | None => BPanic
      | Some b =>
        if addr <? b_base b then (if i =? 0 then BOk UINT64_MAX else search_addr fuel p bs l (i - 1) addr)
        else if wrap64 (b_base b + b_size b + UINT64_MAX) <? addr then search_addr fuel p bs (i + 1) r addr
        else BOk (wrap64 (b_start b + N.shiftr (addr - b_base b) 12))
      end
  end.
(** plat/arm/src/arm_granule.c:18-59: plat_granule_addr_to_idx *)
Definition addr_to_idx (p : plat) (ly : layout) (addr : N) : bres N :=
  if negb (addr mod 4096 =? 0) then BOk UINT64_MAX
  else
    let n := N.of_nat (length (l_banks ly)) in
    blet _ := bassert (0 <? n) in
    blet _ := bassert (n <=? p_max_banks p) in
    search_addr (S (length (l_banks ly))) p (l_banks ly) 0 (n - 1) addr.

(** plat/arm/src/arm_granule.c:76-98: the search of plat_granule_idx_to_addr *)
Fixpoint search_idx (fuel : nat) (p : plat) (bs : list bank) (l r idx : N) : bres N :=
  match fuel with
  | O => BLoop
  | S fuel =>
    if r <? l then BPanic
    else
      let i := l + (r - l) / 2 in
      if negb (i <? p_max_banks p) then BPanic
      else match nth_error bs (N.to_nat i) with
      | None => BPanic
      | Some b =>
        if idx <? b_start b then (if i =? 0 then BPanic else search_idx fuel p bs l (i - 1) idx)
        else if wrap64 (b_start b + N.shiftr (b_size b) 12 + UINT64_MAX) <? idx then search_idx fuel p bs (i + 1) r idx
        else BOk (wrap64 (b_base b + wrap64 (N.shiftl (idx - b_start b) 12)))
      end
  end.
(** plat/arm/src/arm_granule.c:61-102: plat_granule_idx_to_addr *)
Definition idx_to_addr (p : plat) (ly : layout) (idx : N) : bres N :=
  let n := N.of_nat (length (l_banks ly)) in
  blet _ := bassert (0 <? n) in
  blet _ := bassert (idx <? l_granules ly) in
  search_idx (S (length (l_banks ly))) p (l_banks ly) 0 (n - 1) idx.

(** lib/granule/src/granule.c:46-50: granule_from_idx; a descriptor is named by its
    index in [granules] *)
Definition granule_from_idx (p : plat) (idx : N) : bres N :=
  blet _ := bassert (idx <? p_max_granules p) in BOk idx.
(** lib/granule/src/granule.c:27-38: granule_addr of the descriptor with index [g] *)
Definition granule_addr (p : plat) (ly : layout) (g : N) : bres N := idx_to_addr p ly g.
(** lib/granule/src/granule.c:59-67: addr_to_granule *)
Definition addr_to_granule (p : plat) (ly : layout) (addr : N) : bres N :=
  blet _ := bassert (addr mod 4096 =? 0) in
  blet idx := addr_to_idx p ly addr in
  granule_from_idx p idx.
(** lib/granule/src/granule.c:83-98: find_granule; NULL is [None] *)
Definition find_granule_desc (p : plat) (ly : layout) (addr : N) : bres (option N) :=
  if negb (addr mod 4096 =? 0) then BOk None
  else
    blet idx := addr_to_idx p ly addr in
    if p_max_granules p <=? idx then BOk None
    else blet g := granule_from_idx p idx in BOk (Some g).
