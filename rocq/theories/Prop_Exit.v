(** C39, C40, C49: what the host may put into a REC at entry, emulated loads, and
    injected exceptions. *)
From Coq Require Import NArith ZArith List Bool.
From Verif Require Import Bits S2tte State Granule RecFields RmiRec Psci Gic Esr SpecExit ExitFacts.
Import ListNotations.
Local Open Scope N_scope.

(* ------------------------------------------------------------------ *)
(** * C39 *)

(** The interrupt state the host offers at REC entry is accepted exactly when it
    is well formed, whatever the interrupt controller implements. *)
Theorem C39_validation : forall vtr ext f e,
  gic_get_virt_features vtr ext = Some f ->
  gic_validate_state f e = true <-> gic_entry_ok vtr ext (en_gicv3_hcr e) (en_gicv3_lrs e).
Proof. exact gic_validate_iff. Qed.

(** Of the control register only the bits the host may set are taken over. *)
Theorem C39_control_bits : forall f s e b,
  N.testbit (gic_hcr (gic_copy_state_from_rec_entry f s e)) b =
  if existsb (N.eqb b) [1; 2; 3; 4; 5; 6; 7; 14] then N.testbit (en_gicv3_hcr e) b else N.testbit (gic_hcr s) b.
Proof. exact copy_hcr_listed. Qed.

(** A controller with 16 list registers, 5 priority bits and 16-bit identifiers;
    an entry with two pending interrupts and one without is accepted, one with a
    duplicate, a hardware link or a reserved identifier is rejected. *)
Definition ex_vtr : N := 15 + 4 * 2 ^ 26 + 4 * 2 ^ 29.
Definition ex_gicf : gicf := mkGicf 15 65535 7 false.
Definition ex_enter (l : list N) : rec_enter :=
  mkEnter 0 (fun _ => 0) (2 ^ 14) (fun i => nth (N.to_nat i) l 0).
Example C39_example_features : gic_get_virt_features ex_vtr false = Some ex_gicf.
Proof. vm_compute. reflexivity. Qed.
Example C39_example_accepted :
  gic_validate_state ex_gicf (ex_enter [2 ^ 62 + 2 ^ 55 + 27; 0; 2 ^ 63 + 2 ^ 41 + 8192]) = true.
Proof. vm_compute. reflexivity. Qed.
Example C39_example_rejected :
  map (fun l => gic_validate_state ex_gicf (ex_enter l))
      [[2 ^ 62 + 27; 2 ^ 63 + 27]; [2 ^ 62 + 2 ^ 61 + 27]; [2 ^ 62 + 1020]; [2 ^ 62 + 2 ^ 48 + 27]; [2 ^ 62 + 2 ^ 32 + 27]]
  = [false; false; false; false; false].
Proof. vm_compute. reflexivity. Qed.

(* ------------------------------------------------------------------ *)
(** * C40 *)

(** The emulation of an access to unprotected memory.  Bit 0 of the flags asks
    for it and bit 1 asks for an abort instead.  It is refused unless the last
    exit was a data abort (class 36) with a valid instruction syndrome (bit 24).
    A load puts the extended value into its destination register, a store
    changes no register; the PC moves on and nothing else changes. *)
Theorem C40_emulation : forall r e,
  N.testbit (en_flags e) 0 = true -> N.testbit (en_flags e) 1 = false ->
  match complete_mmio_emulation r e with
  | None => field (r_last_esr r) 26 6 <> 36 \/ N.testbit (r_last_esr r) 24 = false
  | Some r' =>
    field (r_last_esr r) 26 6 = 36 /\ N.testbit (r_last_esr r) 24 = true /\
    r_pc r' = (r_pc r + 4) mod 2 ^ 64 /\
    (forall n, r_regs r' n =
       if N.testbit (r_last_esr r) 6 then r_regs r n
       else if (n =? field (r_last_esr r) 16 5) && negb (n =? 31)
            then Z.to_N (load_value (r_last_esr r) (en_gprs e 0)) else r_regs r n) /\
    set_pc (set_regs r' (r_regs r)) (r_pc r) = r
  end.
Proof. exact complete_mmio_spec. Qed.

(** Without the request nothing changes. *)
Theorem C40_not_requested : forall r e,
  N.testbit (en_flags e) 0 = false \/ N.testbit (en_flags e) 1 = true ->
  complete_mmio_emulation r e = Some r.
Proof. exact complete_mmio_off. Qed.

(** Signed byte loads into a 64-bit and a 32-bit register, and an unsigned halfword. *)
Definition ex_esr (sas sse srt sf : N) : N := 36 * 2 ^ 26 + 2 ^ 24 + sas * 2 ^ 22 + sse * 2 ^ 21 + srt * 2 ^ 16 + sf * 2 ^ 15.
Example C40_example_values :
  load_value (ex_esr 0 1 5 1) 0x1280 = 0xffffffffffffff80%Z /\
  load_value (ex_esr 0 1 5 0) 0x1280 = 0xffffff80%Z /\
  load_value (ex_esr 1 0 5 1) 0x78abcd = 0xabcd%Z.
Proof. vm_compute. repeat split. Qed.
Definition ex_rec : recd :=
  mkRec 0 true (fun _ => 7) 0 0x1000 5 (fun q => if sysreg_id q =? sysreg_id VBAR_EL1 then 0x8000 else 0)
        (mkGic (fun _ => 0) (fun _ => 0) 0 0 (fun _ => 0) 0) 0 0 0 0 (mkReq 0 0 0 0 0 0) 0 false 0 0 (mkSimd false 0)
        (mkCtx 33 1 1 0 0 false) (ex_esr 0 1 5 1) 0 0 false [] 0 false false.
Example C40_example_emulation :
  match complete_mmio_emulation ex_rec (mkEnter 1 (fun _ => 0x1280) 0 (fun _ => 0)) with
  | Some r' => (r_pc r', r_regs r' 5, r_regs r' 6) = (0x1004, 0xffffffffffffff80, 7)
  | None => False
  end.
Proof. vm_compute. reflexivity. Qed.

(* ------------------------------------------------------------------ *)
(** * C49 *)

(** Injection of an abort.  Missing for the full property: a realm at EL0 in
    AArch32 state whose SCTLR2_EL1 directs external aborts to the SError vector. *)
Theorem C49_abort_partial : forall r esr far fsc,
  realm_mode (r_pstate r) -> In (field esr 26 6) [32; 36] -> fsc < 64 ->
  ~ (from_el0 (r_pstate r) = true /\ aarch32 (r_pstate r) = true /\ N.testbit (r_sys r SCTLR2_EL1) 5 = true) ->
  exists r', inject_sync_idabort r esr far fsc = Some r' /\
    r_pc r' = vector_entry (r_sys r VBAR_EL1) (r_pstate r) (N.testbit (r_sys r SCTLR2_EL1) 5) /\
    r_pstate r' = pstate_el1h /\
    r_sys r' FAR_EL1 = far /\ r_sys r' ELR_EL1 = r_pc r /\ r_sys r' SPSR_EL1 = r_pstate r /\
    injected_esr esr (r_pstate r) fsc (r_sys r' ESR_EL1) /\
    (forall q, ~ In q [FAR_EL1; ELR_EL1; SPSR_EL1; ESR_EL1] -> r_sys r' q = r_sys r q) /\
    set_sys (set_pstate (set_pc r' (r_pc r)) (r_pstate r)) (r_sys r) = r.
Proof. exact inject_idabort_spec. Qed.

(** In that case the synchronous vector is used although the SError vector is
    asked for. *)
Theorem C49_abort_refuted : exists r esr,
  realm_mode (r_pstate r) /\ In (field esr 26 6) [32; 36] /\ N.testbit (r_sys r SCTLR2_EL1) 5 = true /\
  match inject_sync_idabort r esr 0 16 with
  | Some r' => r_pc r' <> vector_entry (r_sys r VBAR_EL1) (r_pstate r) true
  | None => True
  end.
Proof. exact inject_aarch32_ease. Qed.

(** Injection of an undefined instruction exception: class 0 with a 32-bit
    instruction (bit 25). *)
Theorem C49_undefined : forall r, realm_mode (r_pstate r) ->
  exists r', realm_inject_undef_abort r = Some r' /\
    r_pc r' = vector_entry (r_sys r VBAR_EL1) (r_pstate r) false /\
    r_pstate r' = pstate_el1h /\
    r_sys r' ELR_EL1 = r_pc r /\ r_sys r' SPSR_EL1 = r_pstate r /\ r_sys r' ESR_EL1 = 2 ^ 25 /\
    (forall q, ~ In q [ELR_EL1; SPSR_EL1; ESR_EL1] -> r_sys r' q = r_sys r q) /\
    set_sys (set_pstate (set_pc r' (r_pc r)) (r_pstate r)) (r_sys r) = r.
Proof. exact inject_undef_spec. Qed.

Example C49_example : 
  match inject_sync_idabort ex_rec (ex_esr 0 1 5 1) 0xabc 16 with
  | Some r' => (r_pc r', r_pstate r', r_sys r' ELR_EL1, r_sys r' FAR_EL1, field (r_sys r' ESR_EL1) 26 6, field (r_sys r' ESR_EL1) 0 6)
               = (0x8200, 0x3c5, 0x1000, 0xabc, 37, 16)
  | None => False
  end.
Proof. vm_compute. reflexivity. Qed.

Definition exit_theorems := (@C39_validation, @C39_control_bits, @C40_emulation, @C40_not_requested, @C49_abort_partial, @C49_abort_refuted, @C49_undefined).
Print Assumptions exit_theorems.
