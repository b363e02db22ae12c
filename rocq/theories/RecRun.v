(** Model of the execution of a REC: runtime/core/exit.c, runtime/core/sysregs.c,
    runtime/core/run.c:259-370, runtime/core/timers.c and RMI_REC_ENTER,
    runtime/rmi/run.c:153-336.

    While a REC runs its registers are in the processor.  The model represents
    ELR_EL2, SPSR_EL2, the general registers and the EL1 registers of a running
    REC by the members of struct rec they are saved to; the live values of the
    timers and of the interrupt controller, which change by themselves, are
    inputs.  Each function below reads the REC at the start and stores it at the
    end: no other processor accesses it in between (Step.v, C17). *)
From Coq Require Import NArith ZArith List Bool.
From Verif Require Import Bits S2tte State Granule RecFields Measure RmiRtt RmiRealm RmiRec Psci Gic Esr Rsi.
Import ListNotations.
Local Open Scope N_scope.

(** Hardware constants: the interrupt controller, the ID registers by the
    encoding of sysregs.c, and whether SVE is implemented *)
Record hw := mkHw { h_gic : gicf; h_id : N -> N; h_sve : bool }.

(** arch.h:998-1005 *)
Definition SYSREG_ESR (op0 op1 crn crm op2 : N) : N :=
  N.lor (N.lor (N.lor (N.lor (N.shiftl op0 20) (N.shiftl op1 14)) (N.shiftl crn 10)) (N.shiftl crm 1)) (N.shiftl op2 17).
Definition ESR_EL2_SYSREG_MASK : N := SYSREG_ESR 3 7 15 15 7.
Definition ESR_EL2_SYSREG_ID_MASK : N := SYSREG_ESR 3 7 15 0 0.
Definition ESR_EL2_SYSREG_ID : N := SYSREG_ESR 3 0 0 0 0.
(** arch.h:1010-1026: the ID registers *)
Definition ID_PFR0 : N := SYSREG_ESR 3 0 0 4 0.
Definition ID_PFR1 : N := SYSREG_ESR 3 0 0 4 1.
Definition ID_ZFR0 : N := SYSREG_ESR 3 0 0 4 4.
Definition ID_SMFR0 : N := SYSREG_ESR 3 0 0 4 5.
Definition ID_DFR0 : N := SYSREG_ESR 3 0 0 5 0.
Definition ID_DFR1 : N := SYSREG_ESR 3 0 0 5 1.
Definition ID_AFR0 : N := SYSREG_ESR 3 0 0 5 4.
Definition ID_AFR1 : N := SYSREG_ESR 3 0 0 5 5.
Definition ID_ISAR0 : N := SYSREG_ESR 3 0 0 6 0.
Definition ID_ISAR1 : N := SYSREG_ESR 3 0 0 6 1.
Definition ID_MMFR0 : N := SYSREG_ESR 3 0 0 7 0.
Definition ID_MMFR1 : N := SYSREG_ESR 3 0 0 7 1.
Definition ID_MMFR2 : N := SYSREG_ESR 3 0 0 7 2.
(** arch.h:1051-1065 *)
Definition ESR_ICC_PMR_EL1 : N := SYSREG_ESR 3 0 4 6 0.
Definition ESR_ICC_EL1_MASK : N := SYSREG_ESR 3 3 15 8 0.
Definition ESR_ICC_EL1 : N := SYSREG_ESR 3 0 12 8 0.
Definition ESR_ICC_DIR : N := SYSREG_ESR 3 0 12 11 1.
Definition ESR_ICC_SGI1R : N := SYSREG_ESR 3 0 12 11 5.
Definition ESR_ICC_SGI0R : N := SYSREG_ESR 3 0 12 11 7.
Definition sysreg_is_write (esr : N) : bool := N.land esr 1 =? 0.
Definition sysreg_rt (esr : N) : N := EXTRACT 5 5 esr.

(** sysregs.c:48-87, fields of 4 bits given by their shifts *)
Definition fields4 (l : list N) : N := fold_right (fun s acc => N.lor (MASK 4 s) acc) 0 l.
Definition DFR0_CLEAR : N := fields4 [4; 16; 24; 28; 32; 40; 44; 52; 56].
Definition DFR1_CLEAR : N := fields4 [48; 36].
Definition PFR0_CLEAR : N := fields4 [44].
Definition PFR1_CLEAR : N := fields4 [8; 24].
Definition PFR0_SVE : N := MASK 4 32.

(** sysregs.c:121-179: the value of an ID register a realm reads *)
Definition id_value (h : hw) (sve_en : bool) (idreg : N) : N :=
  if existsb (N.eqb idreg) [ID_AFR0; ID_AFR1; ID_ISAR0; ID_ISAR1; ID_MMFR0; ID_MMFR1; ID_MMFR2] then h_id h idreg
  else if idreg =? ID_DFR0 then N.ldiff (h_id h idreg) DFR0_CLEAR
  else if idreg =? ID_DFR1 then N.ldiff (h_id h idreg) DFR1_CLEAR
  else if idreg =? ID_PFR0 then
    let v := N.ldiff (h_id h idreg) PFR0_CLEAR in
    if negb (EXTRACT 4 32 v =? 0) && negb sve_en then N.ldiff v PFR0_SVE else v
  else if idreg =? ID_PFR1 then N.ldiff (h_id h idreg) PFR1_CLEAR
  else if idreg =? ID_ZFR0 then (if h_sve h && sve_en then h_id h idreg else 0)
  else 0.

(** sysregs.c:92-183 *)
Definition handle_id_sysreg_trap (h : hw) (r : recd) (esr : N) : prog recd :=
  assert_ (negb (sysreg_is_write esr)) ;;;
  let rt := sysreg_rt esr in
  Ret (if rt =? 31 then r
       else set_reg r rt (id_value h (sve_en (r_simd r)) (N.land esr ESR_EL2_SYSREG_MASK))).

(** sysregs.c:236-247 *)
Definition get_sysreg_write_value (r : recd) (esr : N) : N :=
  if sysreg_rt esr =? 31 then 0 else r_regs r (sysreg_rt esr).

(** sysregs.c:185-213 and 249-262 *)
Definition handle_icc_el1_sysreg_trap (r : recd) (x : rec_exit) (esr : N) : prog rec_exit :=
  let sysreg := N.land esr ESR_EL2_SYSREG_MASK in
  assert_ (existsb (N.eqb sysreg) [ESR_ICC_DIR; ESR_ICC_SGI1R; ESR_ICC_SGI0R]) ;;;
  assert_ (sysreg_is_write esr) ;;;
  let x1 := ex_set_esr (ex_set_reason x RMI_EXIT_SYNC) esr in
  Ret (ex_set_gprs x1 (upd (ex_gprs x1) 0 (get_sysreg_write_value r esr))).

(** sysregs.c:268-318; true when the realm goes on *)
Definition handle_sysreg_access_trap (h : hw) (r : recd) (x : rec_exit) (esr : N) : prog (recd * rec_exit * bool) :=
  assert_ (has esr ESR_IL) ;;;
  if N.land esr ESR_EL2_SYSREG_ID_MASK =? ESR_EL2_SYSREG_ID then
    r1 <- handle_id_sysreg_trap h r esr ;; Ret (r1, x, true)
  else if N.land esr ESR_ICC_EL1_MASK =? ESR_ICC_EL1 then
    x1 <- handle_icc_el1_sysreg_trap r x esr ;; Ret (r, x1, false)
  else if N.land esr ESR_EL2_SYSREG_MASK =? ESR_ICC_PMR_EL1 then
    x1 <- handle_icc_el1_sysreg_trap r x esr ;; Ret (r, x1, false)
  else
    Ret (if negb (sysreg_is_write esr) && negb (sysreg_rt esr =? 31) then set_reg r (sysreg_rt esr) 0 else r, x, true).

(* ------------------------------------------------------------------ *)
(** * Aborts *)

(** exit.c:81-99 *)
Definition ipa_is_empty (c : cfg) (r : recd) (ipa : N) : prog bool :=
  assert_ (is_aligned_granule ipa) ;;;
  o <- realm_ipa_to_pa c r ipa ;;
  match o with
  | WOk llt _ _ => granule_unlock llt ;;; Ret false
  | WFail EMPTY _ => Ret true
  | _ => Ret false
  end.

(** exit.c:101-113 *)
Definition fsc_is_external_abort (fsc : N) : bool := (fsc =? FSC_SEA) || ((19 <=? fsc) && (fsc <=? 23)).

(** The injection of an abort into the running REC; [esr] and [far] are ESR_EL2
    and FAR_EL2 *)
Definition inject_idabort (r : recd) (esr far : N) : prog recd :=
  match inject_sync_idabort r esr far FSC_SEA with Some r' => Ret r' | None => Panic end.
Definition inject_undef (r : recd) : prog recd :=
  match realm_inject_undef_abort r with Some r' => Ret r' | None => Panic end.

(** exit.c:121-172; [None] when the abort is not external.  system_abort is an
    assertion. *)
Definition handle_sync_external_abort (r : recd) (x : rec_exit) (esr far : N) : prog (option (recd * rec_exit)) :=
  if negb (fsc_is_external_abort (N.land esr FSC_MASK)) then Ret None
  else
    let set_ := N.land esr SET_MASK in
    let x1 := ex_set_esr x (N.land esr ESR_NONEMULATED_ABORT_MASK) in
    if set_ =? SET_UER then r1 <- inject_idabort r esr far ;; Ret (Some (r1, x1))
    else if set_ =? SET_UEO then Ret (Some (r, x1))
    else Panic.

(** exit.c:51-60 *)
Definition get_dabt_write_value (r : recd) (esr : N) : N :=
  if esr_srt esr =? 31 then 0 else N.land (r_regs r (esr_srt esr)) (access_mask esr).

(** exit.c:36-49: bit 4 of SPSR_EL2 tells AArch32 *)
Definition is_aarch32 (r : recd) : bool := has (r_pstate r) (2 ^ 4).

(** exit.c:197-244 *)
Definition handle_data_abort (c : cfg) (r : recd) (x : rec_exit) (esr far hpfar : N) : prog (recd * rec_exit * bool) :=
  let fipa := hpfar_fipa hpfar in
  o <- handle_sync_external_abort r x esr far ;;
  match o with
  | Some (r1, x1) => Ret (r1, x1, false)
  | None =>
    inj <- (if rec_ipa_size r <=? fipa then Ret true else ipa_is_empty c r fipa) ;;
    if inj then r1 <- inject_idabort r esr far ;; Ret (r1, x, true)
    else
      let fill esr' far' write_val :=
        let x1 := ex_set_hpfar (ex_set_far (ex_set_esr x esr') far') hpfar in
        ex_set_gprs x1 (upd (ex_gprs x1) 0 write_val) in
      if is_aarch32 r || addr_in_rec_par r fipa then
        let esr1 := if is_aarch32 r then N.ldiff esr ISV_BIT else esr in
        Ret (r, fill (N.land esr1 ESR_NONEMULATED_ABORT_MASK) 0 0, false)
      else
        let write_val := if esr_is_write esr then get_dabt_write_value r esr else 0 in
        Ret (r, fill (N.land esr ESR_EMULATED_ABORT_MASK) (N.land far 4095) write_val, false)
  end.

(** exit.c:250-297 *)
Definition handle_instruction_abort (c : cfg) (r : recd) (x : rec_exit) (esr far hpfar : N) : prog (recd * rec_exit * bool) :=
  let fipa := hpfar_fipa hpfar in
  o <- handle_sync_external_abort r x esr far ;;
  match o with
  | Some (r1, x1) => Ret (r1, x1, false)
  | None =>
    inj <- (if (rec_ipa_size r <=? fipa) || negb (addr_in_rec_par r fipa) then Ret true else ipa_is_empty c r fipa) ;;
    if inj then r1 <- inject_idabort r esr far ;; Ret (r1, x, true)
    else if negb (N.ldiff (N.land esr FSC_MASK) 3 =? FSC_TRANSLATION_FAULT_L0) then Ret (r, x, false)
    else Ret (r, ex_set_esr (ex_set_hpfar x hpfar) (N.land esr ESR_NONEMULATED_ABORT_MASK), false)
  end.

(* ------------------------------------------------------------------ *)
(** * SIMD *)

(** arch.h: CPTR_EL2.FPEN, ZEN, SMEN *)
Definition CPTR_SIMD_MASK : N := N.lor (N.lor (MASK 2 20) (MASK 2 16)) (MASK 2 24).
(** simd.h:223-252; sme_en is never set for a realm *)
Definition simd_enable (cptr : N) (sve : bool) : N :=
  N.lor (N.lor (N.ldiff cptr CPTR_SIMD_MASK) (INPLACE 2 20 3)) (if sve then INPLACE 2 16 3 else 0).
Definition simd_disable (cptr : N) : N := N.ldiff cptr CPTR_SIMD_MASK.

(** exit.c:303-358; the flag tells that the SIMD registers hold the context of
    the REC *)
Definition handle_simd_exception (r : recd) (simd : bool) (esr : N) : prog (recd * bool) :=
  let ec := esr_ec esr in
  let sve := sve_en (r_simd r) in
  if ((ec =? EC_SVE) && negb sve) || ((ec =? EC_SME) && (negb sve || simd)) then
    r1 <- inject_undef r ;; Ret (r1, simd)
  else
    assert_ (negb simd) ;;;
    Ret (set_sysreg r CPTR_EL2 (simd_enable (r_sys r CPTR_EL2) sve), true).

(* ------------------------------------------------------------------ *)
(** * Exits *)

(** run_realm returns one of these, exception.h *)
Inductive exc := ExcSync | ExcIrq | ExcFiq | ExcSerror | ExcOther.
(** The syndrome registers at an exit, and the environment of the call *)
Record event := mkEv { ev_exc : exc; ev_esr : N; ev_far : N; ev_hpfar : N; ev_att : att_env }.

(** The state of a REC in the run loop, with the flag of the SIMD context *)
Definition rstate : Type := vcpu * bool.

(** exit.c:480-526 *)
Definition handle_exception_sync (c : cfg) (h : hw) (ev : event) (s : rstate) : prog (rstate * bool) :=
  let v := fst s in
  let simd := snd s in
  let r := v_rec v in
  let x := v_exit v in
  let esr := ev_esr ev in
  let ec := esr_ec esr in
  let keep (o : recd * rec_exit * bool) : rstate * bool :=
    (mkV (fst (fst o)) (snd (fst o)) (v_att v), simd, snd o) in
  if ec =? EC_WFX then
    Ret (mkV (advance_pc r) (ex_set_esr x (N.land esr (N.lor EC_MASK 1))) (v_att v), simd, false)
  else if ec =? EC_HVC then r1 <- inject_undef r ;; Ret (v_set_rec v r1, simd, true)
  else if ec =? EC_SMC then o <- handle_realm_rsi c (ev_att ev) v ;; Ret (fst o, simd, snd o)
  else if ec =? EC_SYSREG then
    o <- handle_sysreg_access_trap h r x esr ;;
    Ret (mkV (advance_pc (fst (fst o))) (snd (fst o)) (v_att v), simd, snd o)
  else if ec =? EC_INST_ABORT then o <- handle_instruction_abort c r x esr (ev_far ev) (ev_hpfar ev) ;; Ret (keep o)
  else if ec =? EC_DATA_ABORT then o <- handle_data_abort c r x esr (ev_far ev) (ev_hpfar ev) ;; Ret (keep o)
  else if (ec =? EC_FPU) || (ec =? EC_SVE) || (ec =? EC_SME) then
    o <- handle_simd_exception r simd esr ;; Ret (v_set_rec v (fst o), snd o, true)
  else Ret (s, false).

(** arch.h:365-388 *)
Definition SERROR_IDS_BIT : N := 2 ^ 24.
Definition SERROR_AET (n : N) : N := INPLACE 3 10 n.
Definition ESR_SERROR_MASK : N := fold_right N.lor 0 [SERROR_IDS_BIT; MASK 3 10; EA_BIT; MASK 6 0].

(** exit.c:532-583; system_abort is an assertion *)
Definition handle_exception_serror_lel (v : vcpu) (esr : N) : prog vcpu :=
  assert_ (negb (has esr SERROR_IDS_BIT)) ;;;
  assert_ (N.land esr (MASK 6 0) =? 1) ;;;
  let aet := N.land esr (MASK 3 10) in
  let report r := mkV r (ex_set_esr (v_exit v) (N.land esr ESR_SERROR_MASK)) (v_att v) in
  if (aet =? SERROR_AET 1) || (aet =? SERROR_AET 3) then Ret (report (set_serror (v_rec v) esr true))
  else if (aet =? SERROR_AET 6) || (aet =? SERROR_AET 2) then Ret (report (v_rec v))
  else Panic.

(** exit.c:599-657; true when the realm goes on *)
Definition handle_realm_exit (c : cfg) (h : hw) (ev : event) (s : rstate) : prog (rstate * bool) :=
  let v := fst s in
  let reason n := v_set_exit v (ex_set_reason (v_exit v) n) in
  match ev_exc ev with
  | ExcSync =>
    o <- handle_exception_sync c h ev (reason RMI_EXIT_SYNC, snd s) ;;
    if snd o then Ret o
    else
      let v1 := fst (fst o) in
      let esr1 := if has (ex_esr (v_exit v1)) ISV_BIT then ev_esr ev else N.ldiff (ev_esr ev) ISV_BIT in
      Ret (v_set_rec v1 (set_last (v_rec v1) esr1 (ev_hpfar ev) (ev_far ev)), snd (fst o), false)
  | ExcIrq => Ret (reason RMI_EXIT_IRQ, snd s, false)
  | ExcFiq => Ret (reason RMI_EXIT_FIQ, snd s, false)
  | ExcSerror =>
    v1 <- handle_exception_serror_lel (reason RMI_EXIT_SERROR) (ev_esr ev) ;;
    Ret (v_set_rec v1 (set_last (v_rec v1) (ev_esr ev) (ev_hpfar ev) (ev_far ev)), snd s, false)
  | ExcOther => Ret (s, false)
  end.

(* ------------------------------------------------------------------ *)
(** * The run loop *)

(** The live timer registers of the realm *)
Record timers := mkTm { tm_vctl : N; tm_vcval : N; tm_pctl : N; tm_pcval : N }.

(** timers.c:14-20: ENABLE is bit 0, IMASK bit 1, ISTATUS bit 2 *)
Definition timer_asserted (ctl : N) : bool := N.land ctl 7 =? 5.
Definition CNTHCTL_CNTVMASK : N := 2 ^ 18.
Definition CNTHCTL_CNTPMASK : N := 2 ^ 19.
Definition set_mask (w bit : N) (b : bool) : N := if b then N.lor w bit else N.ldiff w bit.

(** timers.c:34-84; the wait for the CPU interface terminates *)
Definition check_pending_timers (r : recd) (tm : timers) : recd * bool :=
  let cnt := set_mask (set_mask (r_sys r CNTHCTL_EL2) CNTHCTL_CNTVMASK (timer_asserted (tm_vctl tm)))
                      CNTHCTL_CNTPMASK (timer_asserted (tm_pctl tm)) in
  (set_sysreg r CNTHCTL_EL2 cnt,
   xorb (timer_asserted (tm_vctl tm)) (timer_asserted (r_sys r CNTV_CTL_EL0)) ||
   xorb (timer_asserted (tm_pctl tm)) (timer_asserted (r_sys r CNTP_CTL_EL0))).

(** run.c:218-229: the pending SError is handed to the processor *)
Definition activate_events (r : recd) : recd :=
  if r_serror_inject r then set_serror r (r_serror_vsesr r) false else r.

(** run.c:303-318: the head of the loop; true when the realm is entered *)
Definition loop_head (tm : timers) (v : vcpu) : vcpu * bool :=
  let o := check_pending_timers (v_rec v) tm in
  if snd o then (mkV (fst o) (ex_set_reason (v_exit v) RMI_EXIT_IRQ) (v_att v), false)
  else (v_set_rec v (activate_events (fst o)), true).

(** timers.c:86-94; 64-bit differences *)
Definition sub64 (a b : N) : N := wrap64 (a + (2 ^ 64 - wrap64 b)).
Definition report_timer_state (r : recd) (tm : timers) (x : rec_exit) : rec_exit :=
  ex_set_timers x (tm_pctl tm) (sub64 (tm_pcval tm) (r_sys r CNTPOFF_EL2))
                  (tm_vctl tm) (sub64 (tm_vcval tm) (r_sys r CNTVOFF_EL2)).

(** gic.c:281-296: the hardware changes the active priorities, the list
    registers, VMCR, MISR and the EOI count of HCR *)
Definition gic_save_state (f : gicf) (s live : gic_state) : gic_state :=
  mkGic (gic_ap0r live) (gic_ap1r live) (gic_vmcr live)
        (N.lor (N.ldiff (gic_hcr s) ICH_HCR_EL2_EOI_COUNT_MASK) (N.land (gic_hcr live) ICH_HCR_EL2_EOI_COUNT_MASK))
        (fun i => if i <=? gf_nr_lrs f then gic_lr live i else gic_lr s i) (gic_misr live).

(** run.c:71-88 *)
Definition save_realm_state (f : gicf) (tm : timers) (live : gic_state) (ovf : N) (r : recd) (x : rec_exit) : recd * rec_exit :=
  let r1 := set_sysreg (set_sysreg (set_sysreg (set_sysreg r CNTP_CTL_EL0 (tm_pctl tm)) CNTP_CVAL_EL0 (tm_pcval tm))
                                   CNTV_CTL_EL0 (tm_vctl tm)) CNTV_CVAL_EL0 (tm_vcval tm) in
  let r2 := set_gic r1 (gic_save_state f (r_gic r1) live) in
  (r2, if r_pmu_enabled r then ex_set_pmu x ovf else x).

(** What the hardware shows when a run ends; [fi_ovf] is the PMU overflow status
    and [fi_wok] tells that the exit record can be written to the host *)
Record fin := mkFin { fi_tm : timers; fi_gic : gic_state; fi_ovf : N; fi_wok : bool }.

(** run.c:340-369 and rmi/run.c:311-313 *)
Definition run_end (f : gicf) (fi : fin) (s : rstate) : vcpu :=
  let v := fst s in
  let r := v_rec v in
  let r1 := if snd s then set_sysreg r CPTR_EL2 (simd_disable (r_sys r CPTR_EL2)) else r in
  let x1 := report_timer_state r1 (fi_tm fi) (v_exit v) in
  let o := save_realm_state f (fi_tm fi) (fi_gic fi) (fi_ovf fi) r1 x1 in
  mkV (fst o) (gic_copy_state_to_rec_exit f (r_gic (fst o)) (snd o)) (v_att v).

(* ------------------------------------------------------------------ *)
(** * RMI_REC_ENTER *)

(** rmi/run.c:315-335: the exit record reaches the host when the command
    succeeds *)
Definition rec_enter_out (rec_addr ret : N) (x : rec_exit) (wok : bool) : prog (N * option rec_exit) :=
  unmap_slot SLOT_REC ;;;
  o <- (if ret =? RMI_SUCCESS then
          ok <- ns_buffer_access wok ;;
          Ret (if ok then (RMI_SUCCESS, Some x) else (RMI_ERROR_INPUT, None))
        else Ret (ret, None)) ;;
  atomic_granule_put_release rec_addr ;;;
  Ret o.

(** The end of a run, with the REC in slot SLOT_REC and its auxiliary granules mapped *)
Definition rec_run_finish (f : gicf) (fi : fin) (rec_addr : N) (x : rec_exit) (a : att) (simd : bool)
  : prog (N * option rec_exit) :=
  r <- get_rec rec_addr ;;
  let v := run_end f fi (mkV r x a, simd) in
  put_rec rec_addr (v_rec v) ;;;
  unmap_aux (r_aux r) 0 ;;;
  rec_enter_out rec_addr RMI_SUCCESS (v_exit v) (fi_wok fi).

(** The outcome of the first part of RMI_REC_ENTER: the command returned, or the
    realm runs *)
Inductive enter_out := EReturn (ret : N) (x : option rec_exit) | ERun (x : rec_exit).

(** HCR_EL2.TWI and TWE *)
Definition HCR_TWI : N := 2 ^ 13.
Definition HCR_TWE : N := 2 ^ 14.

(** rmi/run.c:293-305 *)
Definition entry_hcr (r : recd) (e : rec_enter) : N :=
  let h := r_common_hcr r in
  let h := if has (en_flags e) FLAG_TRAP_WFI then N.lor h HCR_TWI else h in
  if has (en_flags e) FLAG_TRAP_WFE then N.lor h HCR_TWE else h.

(** rmi/run.c:153-170 and 290-305, followed by the first iteration of the run loop *)
Definition rec_enter_run (c : cfg) (f : gicf) (fi : fin) (tm : timers) (e : rec_enter) (rec_addr : N) (r : recd) (a : att)
  : prog enter_out :=
  o <- (if negb (r_host_call r) then Ret (r, None)
        else
          o <- complete_rsi_host_call c r e ;;
          match snd o with
          | Some level => x <- emulate_stage2_data_abort (fst o) exit_zero level ;; Ret (fst o, Some x)
          | None => Ret (set_host_call (fst o) false, None)
          end) ;;
  match snd o with
  | Some x =>
    put_rec rec_addr (fst o) ;;;
    q <- rec_enter_out rec_addr RMI_SUCCESS x (fi_wok fi) ;;
    Ret (EReturn (fst q) (snd q))
  | None =>
    let r1 := set_last_esr (fst o) 0 in
    let r2 := set_sysreg r1 HCR_EL2 (entry_hcr r1 e) in
    map_aux (r_aux r2) 0 ;;;
    let l := loop_head tm (mkV r2 exit_zero a) in
    put_rec rec_addr (v_rec (fst l)) ;;;
    if snd l then Ret (ERun (v_exit (fst l)))
    else
      q <- rec_run_finish f fi rec_addr (v_exit (fst l)) a false ;;
      Ret (EReturn (fst q) (snd q))
  end.

(** rmi/run.c:172-289; [enter] is what the read of the host's buffer yields.
    [fi] is used when the command returns without running the realm. *)
Definition smc_rec_enter (c : cfg) (h : hw) (fi : fin) (tm : timers) (rec_addr run_addr : N) (enter : option rec_enter) (a : att)
  : prog enter_out :=
  let f := h_gic h in
  let ret n := Ret (EReturn n None) in
  ns <- (if find_granule c run_addr then st <- rd_state_ run_addr ;; Ret (gstate_eqb st NS) else Ret false) ;;
  if negb ns then ret RMI_ERROR_INPUT
  else
    g <- find_lock_unused_granule c rec_addr REC ;;
    match g with
    | FInval => ret RMI_ERROR_INPUT
    | FBusy => ret RMI_ERROR_REC
    | FOk =>
      atomic_granule_get rec_addr ;;;
      granule_unlock rec_addr ;;;
      ok <- ns_buffer_access (match enter with Some _ => true | None => false end) ;;
      match enter with
      | None => atomic_granule_put_release rec_addr ;;; ret RMI_ERROR_INPUT
      | Some e =>
        map_slot SLOT_REC ;;;
        r <- get_rec rec_addr ;;
        map_slot SLOT_RD ;;;
        d <- get_rd (r_g_rd r) ;;
        unmap_slot SLOT_RD ;;;
        let out n := q <- rec_enter_out rec_addr n exit_zero true ;; Ret (EReturn (fst q) (snd q)) in
        if rd_state d =? REALM_NEW then out (pack_return_code RMI_ERROR_REALM 0)
        else if rd_state d =? REALM_SYSTEM_OFF then out (pack_return_code RMI_ERROR_REALM 1)
        else if negb (rd_state d =? REALM_ACTIVE) then Panic
        else if negb (r_runnable r) then out RMI_ERROR_REC
        else if r_psci_pending r then out RMI_ERROR_REC
        else if negb (gic_validate_state f e) then out RMI_ERROR_REC
        else
          let r1 := set_gic r (gic_copy_state_from_rec_entry f (r_gic r) e) in
          put_rec rec_addr r1 ;;;
          match complete_sea_insertion r1 e with
          | None => Panic
          | Some None => out RMI_ERROR_REC
          | Some (Some r2) =>
            match complete_mmio_emulation r2 e with
            | None => put_rec rec_addr r2 ;;; out RMI_ERROR_REC
            | Some r3 =>
              let q := r_set_ripas r3 in
              let resp := if has (en_flags e) FLAG_RIPAS_RESPONSE then REJECT else ACCEPT in
              let r4 := set_req r3 (mkReq (sr_base q) (sr_top q) (sr_addr q) (sr_ripas q) (sr_change_destroyed q) resp) in
              let r5 := complete_set_ripas r4 in
              let r6 := complete_sysreg_emulation r5 e in
              rec_enter_run c f fi tm e rec_addr r6 a
            end
          end
      end
    end.

(** One exit of the realm, handled: exit.c:599-657, then either the head of the
    loop again or the end of the run *)
Definition rec_run_exit (c : cfg) (h : hw) (ev : event) (fi : fin) (tm : timers) (rec_addr : N) (x : rec_exit) (a : att) (simd : bool)
  : prog (enter_out * att * bool) :=
  r <- get_rec rec_addr ;;
  o <- handle_realm_exit c h ev (mkV r x a, simd) ;;
  let v := fst (fst o) in
  let simd' := snd (fst o) in
  if snd o then
    let l := loop_head tm v in
    put_rec rec_addr (v_rec (fst l)) ;;;
    if snd l then Ret (ERun (v_exit (fst l)), v_att v, simd')
    else
      q <- rec_run_finish (h_gic h) fi rec_addr (v_exit (fst l)) (v_att v) simd' ;;
      Ret (EReturn (fst q) (snd q), v_att v, false)
  else
    put_rec rec_addr (v_rec v) ;;;
    q <- rec_run_finish (h_gic h) fi rec_addr (v_exit v) (v_att v) simd' ;;
    Ret (EReturn (fst q) (snd q), v_att v, false).
