(** Model of the decoding of syndromes and of the injection of exceptions into a
    realm: lib/arch/include/esr.h:14-67, runtime/core/inject_exp.c, and the
    parts of runtime/rmi/run.c:22-151 that complete an emulation on REC entry. *)
From Coq Require Import NArith ZArith List Bool.
From Verif Require Import Bits S2tte State Granule RecFields RmiRec Psci Gic.
Import ListNotations.
Local Open Scope N_scope.

(** arch.h:286-305: exception classes, in place *)
Definition EC_MASK : N := MASK 6 26.
Definition EC (n : N) : N := INPLACE 6 26 n.
Definition EC_WFX : N := EC 1.
Definition EC_FPU : N := EC 7.
Definition EC_HVC : N := EC 22.
Definition EC_SMC : N := EC 23.
Definition EC_SYSREG : N := EC 24.
Definition EC_SVE : N := EC 25.
Definition EC_SME : N := EC 29.
Definition EC_INST_ABORT : N := EC 32.
Definition EC_DATA_ABORT : N := EC 36.
Definition esr_ec (esr : N) : N := N.land esr EC_MASK.

(** arch.h:289, 308-348: fields of the syndrome of an abort *)
Definition ESR_IL : N := 2 ^ 25.
Definition ISV_BIT : N := 2 ^ 24.
Definition SAS_MASK : N := MASK 2 22.
Definition SSE_BIT : N := 2 ^ 21.
Definition SF_BIT : N := 2 ^ 15.
Definition SET_MASK : N := MASK 2 11.
Definition SET_UER : N := INPLACE 2 11 0.
Definition SET_UC : N := INPLACE 2 11 2.
Definition SET_UEO : N := INPLACE 2 11 3.
Definition FNV_BIT : N := 2 ^ 10.
Definition EA_BIT : N := 2 ^ 9.
Definition S1PTW_BIT : N := 2 ^ 7.
Definition WNR_BIT : N := 2 ^ 6.
Definition FSC_MASK : N := MASK 6 0.
Definition FSC_SEA : N := 16.
Definition FSC_TRANSLATION_FAULT_L0 : N := 4.

(** arch.h:351-363 *)
Definition ESR_NONEMULATED_ABORT_MASK : N := fold_right N.lor 0 [EC_MASK; SET_MASK; FNV_BIT; EA_BIT; FSC_MASK].
Definition ESR_EMULATED_ABORT_MASK : N :=
  fold_right N.lor 0 [ESR_NONEMULATED_ABORT_MASK; ISV_BIT; SAS_MASK; SF_BIT; WNR_BIT].

Definition has (w bit : N) : bool := negb (N.land w bit =? 0).

(** esr.h:14-37 *)
Definition esr_srt (esr : N) : N := EXTRACT 5 16 esr.
Definition esr_is_write (esr : N) : bool := has esr WNR_BIT.
Definition esr_sign_extend (esr : N) : bool := has esr SSE_BIT.
Definition esr_sixty_four (esr : N) : bool := has esr SF_BIT.
Definition esr_sas (esr : N) : N := EXTRACT 2 22 esr.

(** esr.h:39-52; the assertion in the default case cannot fail: the field has two bits *)
Definition access_len (esr : N) : N :=
  match esr_sas esr with 0 => 1 | 1 => 2 | 2 => 4 | _ => 8 end.
(** esr.h:54-67 *)
Definition access_mask (esr : N) : N :=
  match esr_sas esr with 0 => N.ones 8 | 1 => N.ones 16 | 2 => N.ones 32 | _ => N.ones 64 end.

(** arch.h: HPFAR_EL2.FIPA is [43:4] and holds bits [51:12] of the address *)
Definition hpfar_fipa (hpfar : N) : N := N.shiftl (N.land hpfar (MASK 40 4)) 8.

(** rec.h: rec_ipa_size, rec_par_size, addr_in_rec_par *)
Definition rec_ipa_size (r : recd) : N := 2 ^ ipa_bits (r_ctx r).
Definition rec_par_size (r : recd) : N := N.shiftr (rec_ipa_size r) 1.
Definition addr_in_rec_par (r : recd) (a : N) : bool := a <? rec_par_size r.

(** smc-rmi.h: flags of a REC entry *)
Definition FLAG_EMUL_MMIO : N := 2 ^ 0.
Definition FLAG_INJECT_SEA : N := 2 ^ 1.
Definition FLAG_TRAP_WFI : N := 2 ^ 2.
Definition FLAG_TRAP_WFE : N := 2 ^ 3.
Definition FLAG_RIPAS_RESPONSE : N := 2 ^ 4.

(** inject_exp.c:21-50; [None] is the failing assertion *)
Definition calc_vector_entry (vbar spsr : N) (apply_sea_ease_offset : bool) : option N :=
  let mode := N.land spsr (MASK 4 0) in
  let add off := Some (wrap64 (vbar + (if apply_sea_ease_offset then off + 384 else off))) in
  if mode =? 5 then add 512
  else if mode =? 4 then add 0
  else if mode =? 0 then
    if N.land spsr (MASK 1 4) =? 0 then add 1024 else Some (wrap64 (vbar + 1536))
  else None.

(** inject_exp.c:56-71; the bits are those of SPSR_EL2_INIT *)
Definition calc_pstate : N := SPSR_EL2_INIT.

(** inject_exp.c:83-117 *)
Definition calc_esr_idabort (esr_el2 spsr_el2 fsc : N) : option N :=
  let esr_el1 := N.ldiff esr_el2 (fold_right N.lor 0 [EC_MASK; FSC_MASK; FNV_BIT; S1PTW_BIT]) in
  let ec := esr_ec esr_el2 in
  if negb ((ec =? EC_INST_ABORT) || (ec =? EC_DATA_ABORT)) then None
  else
    let ec := if N.land spsr_el2 (MASK 4 0) =? 0 then ec else ec + 2 ^ 26 in
    if negb (N.ldiff fsc FSC_MASK =? 0) then None
    else Some (N.lor (N.lor (N.lor esr_el1 ec) fsc) EA_BIT).

(** arch.h:828 *)
Definition SCTLR2_EASE_BIT : N := 2 ^ 5.

(** inject_exp.c:122-143 and 149-163, with the fault address and the syndrome as
    arguments: the first function takes them from the registers and the second
    from last_run_info.  The live registers of a running REC are represented by
    its saved ones, so the two functions agree. *)
Definition inject_sync_idabort (r : recd) (esr far fsc : N) : option recd :=
  match calc_esr_idabort esr (r_pstate r) fsc,
        calc_vector_entry (r_sys r VBAR_EL1) (r_pstate r) (has (r_sys r SCTLR2_EL1) SCTLR2_EASE_BIT) with
  | Some esr1, Some pc =>
    let r1 := set_sysreg r FAR_EL1 far in
    let r2 := set_sysreg r1 ELR_EL1 (r_pc r) in
    let r3 := set_sysreg r2 SPSR_EL1 (r_pstate r) in
    let r4 := set_sysreg r3 ESR_EL1 esr1 in
    Some (set_pstate (set_pc r4 pc) calc_pstate)
  | _, _ => None
  end.

(** inject_exp.c:168-184 *)
Definition realm_inject_undef_abort (r : recd) : option recd :=
  match calc_vector_entry (r_sys r VBAR_EL1) (r_pstate r) false with
  | Some pc =>
    let r1 := set_sysreg r ELR_EL1 (r_pc r) in
    let r2 := set_sysreg r1 SPSR_EL1 (r_pstate r) in
    let r3 := set_sysreg r2 ESR_EL1 ESR_IL in
    Some (set_pstate (set_pc r3 pc) calc_pstate)
  | None => None
  end.

(** run.c:55-73: the value a load receives *)
Definition mmio_read_value (esr gpr0 : N) : N :=
  let val := N.land gpr0 (access_mask esr) in
  if esr_sign_extend esr then
    let mask := 2 ^ (access_len esr * 8 - 1) in
    let val := wrap64 (N.lxor val mask + (2 ^ 64 - mask)) in
    if esr_sixty_four esr then val else N.land val (2 ^ 32 - 1)
  else val.

(** run.c:27-83; [None] tells that the function returns false *)
Definition complete_mmio_emulation (r : recd) (e : rec_enter) : option recd :=
  let esr := r_last_esr r in
  let rt := esr_srt esr in
  if negb (has (en_flags e) FLAG_EMUL_MMIO) then Some r
  else if has (en_flags e) FLAG_INJECT_SEA then Some r
  else if negb (esr_ec esr =? EC_DATA_ABORT) || negb (has esr ISV_BIT) then None
  else
    let r1 := if negb (esr_is_write esr) && negb (rt =? 31)
              then set_reg r rt (mmio_read_value esr (en_gprs e 0)) else r in
    Some (set_pc r1 (wrap64 (r_pc r + 4))).

(** smc-rsi.h:48-90 *)
Definition RSI_SUCCESS : N := 0.
Definition RSI_ERROR_INPUT : N := 1.
Definition RSI_ERROR_STATE : N := 2.
Definition RSI_INCOMPLETE : N := 3.
Definition RSI_ACCEPT : N := 0.
Definition RSI_REJECT : N := 1.
(** rec.h: enum ripas_response *)
Definition ACCEPT : N := 0.
Definition REJECT : N := 1.

(** run.c:85-106 *)
Definition complete_set_ripas (r : recd) : recd :=
  let q := r_set_ripas r in
  if sr_base q =? sr_top q then r
  else
    let ans := if (sr_ripas q =? 1 (* RIPAS_RAM *)) && negb (sr_addr q =? sr_top q) && (sr_response q =? REJECT)
               then RSI_REJECT else RSI_ACCEPT in
    let r1 := set_reg (set_reg (set_reg r 0 RSI_SUCCESS) 1 (sr_addr q)) 2 ans in
    set_req r1 (mkReq 0 0 (sr_addr q) (sr_ripas q) (sr_change_destroyed q) (sr_response q)).

(** run.c:108-129.  The outer option is the outcome of the assertions of the
    injection, the inner one tells whether the function returns true. *)
Definition complete_sea_insertion (r : recd) (e : rec_enter) : option (option recd) :=
  if negb (has (en_flags e) FLAG_INJECT_SEA) then Some (Some r)
  else if negb (esr_ec (r_last_esr r) =? EC_DATA_ABORT) then Some None
  else if addr_in_rec_par r (hpfar_fipa (r_last_hpfar r)) then Some None
  else
    match inject_sync_idabort r (r_last_esr r) (r_last_far r) FSC_SEA with
    | Some r' => Some (Some r')
    | None => None
    end.

(** run.c:132-151 *)
Definition complete_sysreg_emulation (r : recd) (e : rec_enter) : recd :=
  let esr := r_last_esr r in
  let rt := EXTRACT 5 5 esr in
  if negb (esr_ec esr =? EC_SYSREG) then r
  else if N.land esr 1 =? 0 then r
  else if rt =? 31 then r
  else set_reg r rt (en_gprs e 0).
