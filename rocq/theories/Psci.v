(** Model of the completion of PSCI requests by the host, runtime/rsi/psci.c:94-109
    and 323-429.  The calls made by the realm are in Rsi.v. *)
From Coq Require Import NArith ZArith List Bool.
From Verif Require Import Bits S2tte State Granule RecFields.
Import ListNotations.
Local Open Scope N_scope.

(** psci.h:25-78: function identifiers *)
Definition SMC32_PSCI_FID (n : N) : N := 2214592512 + n.       (* 0x84000000 *)
Definition SMC64_PSCI_FID (n : N) : N := 3288334336 + n.       (* 0xC4000000 *)
Definition SMC32_PSCI_VERSION : N := SMC32_PSCI_FID 0.
Definition SMC32_PSCI_CPU_SUSPEND : N := SMC32_PSCI_FID 1.
Definition SMC64_PSCI_CPU_SUSPEND : N := SMC64_PSCI_FID 1.
Definition SMC32_PSCI_CPU_OFF : N := SMC32_PSCI_FID 2.
Definition SMC32_PSCI_CPU_ON : N := SMC32_PSCI_FID 3.
Definition SMC64_PSCI_CPU_ON : N := SMC64_PSCI_FID 3.
Definition SMC32_PSCI_AFFINITY_INFO : N := SMC32_PSCI_FID 4.
Definition SMC64_PSCI_AFFINITY_INFO : N := SMC64_PSCI_FID 4.
Definition SMC32_PSCI_SYSTEM_OFF : N := SMC32_PSCI_FID 8.
Definition SMC32_PSCI_SYSTEM_RESET : N := SMC32_PSCI_FID 9.
Definition SMC32_PSCI_FEATURES : N := SMC32_PSCI_FID 10.

(** psci.h:80-93: return values as unsigned long *)
Definition neg64 (n : N) : N := 2 ^ 64 - n.
Definition PSCI_RETURN_SUCCESS : N := 0.
Definition PSCI_RETURN_NOT_SUPPORTED : N := neg64 1.
Definition PSCI_RETURN_INVALID_PARAMS : N := neg64 2.
Definition PSCI_RETURN_DENIED : N := neg64 3.
Definition PSCI_RETURN_ALREADY_ON : N := neg64 4.
Definition PSCI_RETURN_INVALID_ADDRESS : N := neg64 9.
Definition PSCI_AFFINITY_INFO_ON : N := 0.
Definition PSCI_AFFINITY_INFO_OFF : N := 1.

(** arch.h:590-616: SPSR_EL2 of a REC that starts at EL1 with exceptions masked *)
Definition SPSR_EL2_INIT : N := 5 + 64 + 128 + 256 + 512.
(** arch.h:749-777 *)
Definition SCTLR_EL1_FLAGS : N :=
  fold_right (fun b acc => N.lor (2 ^ b) acc) 0 [23; 22; 18; 16; 11; 6; 5; 4; 3].
Definition SCTLR_ELx_EE_BIT : N := 2 ^ 25.

(** arch.h:910-942 and rec.h:346-356 *)
Definition mpidr_to_rec_idx (mpidr : N) : N :=
  N.lor (N.lor (N.land mpidr (MASK 4 0)) (N.shiftr (N.land mpidr (MASK 8 8)) 4))
        (N.lor (N.shiftr (N.land mpidr (MASK 8 16)) 4) (N.shiftr (N.land mpidr (MASK 8 32)) 12)).

(** psci.c:94-109 *)
Definition psci_reset_rec (r : recd) (caller_sctlr_el1 : N) : recd :=
  set_sysreg (set_pstate r SPSR_EL2_INIT) SCTLR_EL1
             (N.lor SCTLR_EL1_FLAGS (N.land caller_sctlr_el1 SCTLR_ELx_EE_BIT)).

(** psci.c:333-357; [in_use] tells that the reference count of the target is
    not zero.  Yields the target and the value for the caller. *)
Definition complete_psci_cpu_on (target : recd) (in_use : bool) (entry ctx caller_sctlr status : N) : recd * N :=
  if in_use || r_runnable target then (target, PSCI_RETURN_ALREADY_ON)
  else if status =? PSCI_RETURN_DENIED then (target, PSCI_RETURN_DENIED)
  else
    let t := psci_reset_rec target caller_sctlr in
    (set_runnable (set_pc (set_reg t 0 ctx) entry) true, PSCI_RETURN_SUCCESS).

(** psci.c:359-367 *)
Definition complete_psci_affinity_info (target : recd) (in_use : bool) : N :=
  if in_use || r_runnable target then PSCI_AFFINITY_INFO_ON else PSCI_AFFINITY_INFO_OFF.

(** psci.c:422-426 *)
Definition finish_psci (calling : recd) (rec_ret : N) : recd :=
  set_psci_pending (set_reg (set_reg (set_reg (set_reg calling 0 rec_ret) 1 0) 2 0) 3 0) false.

(** psci.c:369-429.  [None] is the failing assertion; otherwise the result and
    the new contents of the two RECs.  The switch is on all 64 bits of x0. *)
Definition psci_complete_request (calling target : recd) (in_use : bool) (status : N) : option (N * recd * recd) :=
  let mpidr := r_regs calling 1 in
  let fail := Some (RMI_ERROR_INPUT, calling, target) in
  if negb (r_psci_pending calling) then fail
  else if negb (r_g_rd calling =? r_g_rd target) then fail
  else if negb (mpidr_to_rec_idx mpidr =? r_idx target) then fail
  else
    let x0 := r_regs calling 0 in
    if (x0 =? SMC32_PSCI_CPU_ON) || (x0 =? SMC64_PSCI_CPU_ON) then
      if negb (status =? PSCI_RETURN_SUCCESS) && negb (status =? PSCI_RETURN_DENIED) then fail
      else
        let o := complete_psci_cpu_on target in_use (r_regs calling 2) (r_regs calling 3)
                                      (r_sys calling SCTLR_EL1) status in
        let ret := if (status =? PSCI_RETURN_DENIED) && (snd o =? PSCI_RETURN_ALREADY_ON)
                   then RMI_ERROR_INPUT else RMI_SUCCESS in
        Some (ret, finish_psci calling (snd o), fst o)
    else if (x0 =? SMC32_PSCI_AFFINITY_INFO) || (x0 =? SMC64_PSCI_AFFINITY_INFO) then
      if negb (status =? PSCI_RETURN_SUCCESS) then fail
      else Some (RMI_SUCCESS, finish_psci calling (complete_psci_affinity_info target in_use), target)
    else None.
