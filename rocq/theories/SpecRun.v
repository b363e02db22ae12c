(** Vocabulary of the theorems about the start of an execution context (REC), about
    what its exceptions and PSCI calls do, and about its interrupts and timers.
    Nothing here models code. *)
From Coq Require Import NArith ZArith List Bool.
From Verif Require Import Bits S2tte State Granule RecFields Measure RmiRec Psci Gic Esr Rsi RecRun Arch Mmu Machine Spec SpecStep SpecExit SpecRec SpecRsi SpecSafe.
Import ListNotations.
Local Open Scope N_scope.

(** ** C53: a new REC *)

(** MPIDR_EL1 of a REC: the affinity fields the host chose (4, 8, 8 and 8 bits) at
    [3:0], [15:8], [23:16] and [39:32]; bit 31 is always set *)
Definition mpidr_el1 (host : N) : N :=
  field host 0 4 + field host 8 8 * 2 ^ 8 + field host 16 8 * 2 ^ 16 + 2 ^ 31 + field host 24 8 * 2 ^ 32.
(** The registers that do not start at zero: the system control register (with the MMU
    and the caches off), the identity, and constants of the debug, PMU, timer
    and trap control *)
Definition start_sys (host : N) (q : sysreg) : N :=
  match q with
  | SCTLR_EL1 => SCTLR_RESET
  | VMPIDR_EL2 => mpidr_el1 host
  | MDSCR_EL1 => 2 ^ 12
  | PMCR_EL0 => 2 ^ 5 + 2 ^ 6
  | CNTHCTL_EL2 => 2 ^ 10 + 2 ^ 11
  | CPTR_EL2 => 2 ^ 28 + 2 ^ 30
  | _ => 0
  end.
(** HCR_EL2 of a REC: stage 2 on (0), set/way operations (1), no speculative device
    walks (2), physical interrupts to the monitor (3, 4, 5), barriers (10), ID registers (18) and
    SMC (19) trap, AArch64 (31), virtual host (34), external aborts to the monitor (37), pointer authentication (40, 41)
    and FWB (46) *)
Definition hcr_bits : list N := [0; 1; 2; 3; 4; 5; 10; 18; 19; 31; 34; 37; 40; 41; 46].

Definition initial (c : cfg) (d : rdesc) (p : rec_params) (rc : recd) : Prop :=
  (* what the host chose *)
  r_pc rc = rp_pc p /\ (forall i, r_regs rc i = first_gprs 8 (rp_gprs p) i) /\ r_runnable rc = N.testbit (rp_flags p) 0 /\
  r_aux rc = map (fun i => rp_aux p (N.of_nat i)) (seq 0 16) /\
  (* fixed *)
  r_pstate rc = pstate_el1h /\ r_sp_el0 rc = 0 /\ (forall q, r_sys rc q = start_sys (rp_mpidr p) q) /\
  (forall b, N.testbit (r_common_hcr rc) b = existsb (N.eqb b) hcr_bits) /\
  (forall i, gic_lr (r_gic rc) i = 0 /\ gic_ap0r (r_gic rc) i = 0 /\ gic_ap1r (r_gic rc) i = 0) /\ gic_vmcr (r_gic rc) = 0 /\
  gic_hcr (r_gic rc) = 2 ^ 0 + 2 ^ 8 + 2 ^ 15 /\
  (* nothing is pending *)
  r_psci_pending rc = false /\ r_host_call rc = false /\ r_serror_inject rc = false /\ sr_base (r_set_ripas rc) = sr_top (r_set_ripas rc) /\ r_last_esr rc = 0 /\
  (* from the realm *)
  r_ctx rc = rd_ctx d /\ r_algorithm rc = rd_algorithm d /\ r_simd rc = rd_simd d /\ r_pmu_enabled rc = rd_pmu_enabled d /\ r_pmu_num_ctrs rc = rd_pmu_num_ctrs d /\
  (* the performance monitor traps (bits 5 and 6) unless the realm has it *)
  (forall b, b = 5 \/ b = 6 -> N.testbit (r_mdcr rc) b = negb (rd_pmu_enabled d)).

(** ** C54: what an exception does to the realm *)

(** The registers of the realm besides the general ones and the program counter *)
Definition rest_kept (r r' : recd) : Prop :=
  r_sp_el0 r' = r_sp_el0 r /\ r_pstate r' = r_pstate r /\ (forall q, ~ In q own_regs -> r_sys r' q = r_sys r q).
(** The realm is as before the instruction *)
Definition stays (r r' : recd) : Prop := (forall i, r_regs r' i = r_regs r i) /\ r_pc r' = r_pc r /\ rest_kept r r'.
(** The instruction is done and had no effect *)
Definition skips (r r' : recd) : Prop := (forall i, r_regs r' i = r_regs r i) /\ r_pc r' = (r_pc r + 4) mod 2 ^ 64 /\ rest_kept r r'.
(** The instruction is done and gave register [n] the value [v]; 31 is no register *)
Definition gets (r r' : recd) (n v : N) : Prop :=
  (forall i, i <> n \/ n = 31 -> r_regs r' i = r_regs r i) /\ (n <> 31 -> r_regs r' n = v) /\ r_pc r' = (r_pc r + 4) mod 2 ^ 64 /\ rest_kept r r'.
(** The realm takes the exception of an undefined instruction *)
Definition undefined (r r' : recd) : Prop :=
  (forall i, r_regs r' i = r_regs r i) /\ r_pc r' = vector_entry (r_sys r VBAR_EL1) (r_pstate r) false /\ r_pstate r' = pstate_el1h /\
  r_sp_el0 r' = r_sp_el0 r /\ r_sys r' ELR_EL1 = r_pc r /\ r_sys r' SPSR_EL1 = r_pstate r /\ r_sys r' ESR_EL1 = 2 ^ 25 /\
  (forall q, ~ In q ([ELR_EL1; SPSR_EL1; ESR_EL1] ++ own_regs) -> r_sys r' q = r_sys r q).
(** The realm takes an external abort (status 16) for its access *)
Definition aborted (r r' : recd) (esr far : N) : Prop :=
  (forall i, r_regs r' i = r_regs r i) /\ r_sp_el0 r' = r_sp_el0 r /\ r_pstate r' = pstate_el1h /\
  (~ (from_el0 (r_pstate r) = true /\ aarch32 (r_pstate r) = true /\ N.testbit (r_sys r SCTLR2_EL1) 5 = true) ->
    r_pc r' = vector_entry (r_sys r VBAR_EL1) (r_pstate r) (N.testbit (r_sys r SCTLR2_EL1) 5)) /\
  r_sys r' FAR_EL1 = far /\ r_sys r' ELR_EL1 = r_pc r /\ r_sys r' SPSR_EL1 = r_pstate r /\ injected_esr esr (r_pstate r) 16 (r_sys r' ESR_EL1) /\
  (forall q, ~ In q ([FAR_EL1; ELR_EL1; SPSR_EL1; ESR_EL1] ++ own_regs) -> r_sys r' q = r_sys r q).

(** The realm goes on, or leaves for the host because of a timer interrupt *)
Definition goes (rp : reply) : Prop := rp = Entered \/ told_host rp (fun x => report x 1 0 0 0 no_gprs 0 0 0 0).
(** The realm leaves for the host *)
Definition exits (rp : reply) : Prop := told_host rp (fun _ => True).

(** ID registers: CRm and Op2.  The realm reads the register of the processor without the
    fields (4 bits wide) of features it does not have: debug, trace, profiling and activity monitors, SVE, SME and MTE *)
Definition id_hidden (sve : bool) (crm op2 : N) : list N :=
  if (crm =? 5) && (op2 =? 0) then [4; 16; 24; 28; 32; 40; 44; 52; 56]
  else if (crm =? 5) && (op2 =? 1) then [36; 48]
  else if (crm =? 4) && (op2 =? 0) then (if sve then [44] else [32; 44])
  else if (crm =? 4) && (op2 =? 1) then [8; 24]
  else [].
Definition id_known (h : hw) (sve : bool) (crm op2 : N) : bool :=
  existsb (fun k => (fst k =? crm) && (snd k =? op2)) [(4, 0); (4, 1); (5, 0); (5, 1); (5, 4); (5, 5); (6, 0); (6, 1); (7, 0); (7, 1); (7, 2)] ||
  ((crm =? 4) && (op2 =? 4) && h_sve h && sve).
Definition id_seen (h : hw) (sve : bool) (crm op2 v : N) : Prop :=
  forall b, N.testbit v b = id_known h sve crm op2 && N.testbit (h_id h (3 * 2 ^ 20 + op2 * 2 ^ 17 + crm * 2)) b &&
    negb (existsb (fun f => (f <=? b) && (b <? f + 4)) (id_hidden sve crm op2)).

(** An access is an abort of the realm itself: it is outside the address space,
    or it fetches an instruction from the unprotected half, or the page has RIPAS EMPTY *)
Definition own_fault (G : N -> granule) (r : recd) (ev : event) : Prop :=
  let ipa := fault_ipa (ev_hpfar ev) in
  2 ^ ipa_bits (r_ctx r) <= ipa \/ (class ev = 32 /\ ~ protected (r_ctx r) ipa) \/
  (protected (r_ctx r) ipa /\ page_ripas (page_at G (r_ctx r) ipa) = Some EMPTY).
(** The realm may use the vector registers of this exception: 7 is floating point, 25 SVE and 29 SME *)
Definition simd_allowed (r : recd) (loaded : bool) (k : N) : Prop :=
  k = 7 \/ (sve_en (r_simd r) = true /\ (k = 25 \/ k = 29 /\ loaded = false)).

(** What the exception [ev] does to the registers [r], which become [r']; [loaded] tells that
    the processor has the vector registers of the realm *)
Inductive takes (h : hw) (m : mstate) (r : recd) (loaded : bool) (ev : event) (rp : reply) (r' : recd) : Prop :=
| tk_other : ev_exc ev <> ExcSync -> stays r r' -> exits rp -> takes h m r loaded ev rp r'
| tk_wait : ev_exc ev = ExcSync -> class ev = 1 -> skips r r' -> exits rp -> takes h m r loaded ev rp r'
| tk_hvc : ev_exc ev = ExcSync -> class ev = 22 -> undefined r r' -> goes rp -> takes h m r loaded ev rp r'
| tk_id : forall crm op2 v, ev_exc ev = ExcSync -> class ev = 24 -> accesses (ev_esr ev) 3 0 0 crm op2 ->
    id_seen h (sve_en (r_simd r)) crm op2 v -> gets r r' (field (ev_esr ev) 5 5) v -> goes rp -> takes h m r loaded ev rp r'
| tk_icc : ev_exc ev = ExcSync -> class ev = 24 -> icc_emulated (ev_esr ev) -> skips r r' -> exits rp -> takes h m r loaded ev rp r'
| tk_read : ev_exc ev = ExcSync -> class ev = 24 -> (forall crm op2, ~ accesses (ev_esr ev) 3 0 0 crm op2) -> ~ icc (ev_esr ev) -> ~ writes (ev_esr ev) ->
    gets r r' (field (ev_esr ev) 5 5) 0 -> goes rp -> takes h m r loaded ev rp r'
| tk_write : ev_exc ev = ExcSync -> class ev = 24 -> (forall crm op2, ~ accesses (ev_esr ev) 3 0 0 crm op2) -> ~ icc (ev_esr ev) -> writes (ev_esr ev) ->
    skips r r' -> goes rp -> takes h m r loaded ev rp r'
(* external aborts that the realm can recover from (kind 0) are its own, those it need not see (kind 3) are ignored *)
| tk_external : ev_exc ev = ExcSync -> In (class ev) [32; 36] -> external (ev_esr ev) ->
    (field (ev_esr ev) 11 2 = 0 /\ aborted r r' (ev_esr ev) (ev_far ev) \/ field (ev_esr ev) 11 2 = 3 /\ stays r r') -> exits rp -> takes h m r loaded ev rp r'
| tk_fault : ev_exc ev = ExcSync -> In (class ev) [32; 36] -> ~ external (ev_esr ev) -> own_fault (m_gr m) r ev ->
    aborted r r' (ev_esr ev) (ev_far ev) -> goes rp -> takes h m r loaded ev rp r'
| tk_report : ev_exc ev = ExcSync -> In (class ev) [32; 36] -> ~ external (ev_esr ev) -> ~ own_fault (m_gr m) r ev -> stays r r' -> exits rp -> takes h m r loaded ev rp r'
| tk_simd : ev_exc ev = ExcSync -> simd_allowed r loaded (class ev) -> stays r r' -> goes rp -> takes h m r loaded ev rp r'
| tk_no_simd : ev_exc ev = ExcSync -> In (class ev) [25; 29] -> ~ simd_allowed r loaded (class ev) -> undefined r r' -> goes rp -> takes h m r loaded ev rp r'
| tk_unknown : ev_exc ev = ExcSync -> ~ In (class ev) [1; 22; 23; 24; 32; 36; 7; 25; 29] -> stays r r' -> exits rp -> takes h m r loaded ev rp r'.

(** ** C19: what a PSCI call does *)

(** The identifiers from 0x84000000 and 0xC4000000 to 20 above; bit 16 is a hint *)
Definition psci_id (w : N) : Prop :=
  let f := N.clearbit w 16 in 0x84000000 <= f <= 0x84000014 \/ 0xC4000000 <= f <= 0xC4000014.
Definition minus (n : N) : N := 2 ^ 64 - n.
(** The identifiers PSCI_FEATURES knows *)
Definition psci_known : list N :=
  [0x84000001; 0xC4000001; 0x84000002; 0x84000003; 0xC4000003; 0x84000004; 0xC4000004; 0x84000008; 0x84000009; 0x8400000A; 0x80000000].
Inductive psci_does := Answer (v : N) | Suspend | Off | SystemOff | Ask.
(** CPU_ON: the entry point (x2) is protected, the target (x1) exists and is not the caller.  AFFINITY_INFO: the
    level (x2) is zero, the target exists; the caller is on. *)
Definition psci_meaning (d : rdesc) (r : recd) : psci_does :=
  let f := r_regs r 0 mod 2 ^ 32 in
  let t := realm_index (r_regs r 1) in
  if f =? 0x84000000 then Answer 0x10001
  else if (f =? 0x84000001) || (f =? 0xC4000001) then Suspend
  else if f =? 0x84000002 then Off
  else if (f =? 0x84000003) || (f =? 0xC4000003) then
    if 2 ^ (ipa_bits (rd_ctx d) - 1) <=? r_regs r 2 then Answer (minus 9)
    else if rd_rec_count d <=? t then Answer (minus 2)
    else if t =? r_idx r then Answer (minus 4) else Ask
  else if (f =? 0x84000004) || (f =? 0xC4000004) then
    if negb (r_regs r 2 =? 0) || (rd_rec_count d <=? t) then Answer (minus 2)
    else if t =? r_idx r then Answer 0 else Ask
  else if (f =? 0x84000008) || (f =? 0x84000009) then SystemOff
  else if f =? 0x8400000A then Answer (if existsb (N.eqb (r_regs r 1 mod 2 ^ 32)) psci_known then 0 else minus 1)
  else Answer (minus 1).
(** The call is done without a result *)
Definition called (r r' : recd) : Prop := (forall i, r_regs r' i = r_regs r i) /\ r_pc r' = (r_pc r + 4) mod 2 ^ 64.
Definition psci_effect (m m' : mstate) (rp : reply) (a : N) (d : rdesc) (r r' : recd) (e : psci_does) : Prop :=
  let tells n := told_host rp (fun x => report x 3 0 0 0 (first_gprs n (r_regs r)) 0 0 0 0) in
  match e with
  | Answer v => returned r r' v 0 0 0 /\ only m m' [a] /\ goes rp /\ r_runnable r' = r_runnable r /\ r_psci_pending r' = r_psci_pending r
  | Suspend => returned r r' 0 0 0 0 /\ only m m' [a] /\ tells 1 /\ r_runnable r' = r_runnable r /\ r_psci_pending r' = r_psci_pending r
  | Off => returned r r' 0 0 0 0 /\ only m m' [a] /\ tells 1 /\ r_runnable r' = false /\ r_psci_pending r' = r_psci_pending r
  | SystemOff => called r r' /\ only m m' [a; r_g_rd r] /\ tells 1 /\
      exists d', realm m' (r_g_rd r) d' /\ rd_state d' = REALM_SYSTEM_OFF /\ rd_meas d' = rd_meas d /\ rd_ctx d' = rd_ctx d /\ rd_rec_count d' = rd_rec_count d
  | Ask => called r r' /\ only m m' [a] /\ tells 2 /\ r_psci_pending r' = true /\ r_runnable r' = r_runnable r
  end.

(** ** C52: interrupts and timers *)

(** The bits of ICH_HCR_EL2 that belong to the host, and the count of EOIs *)
Definition host_hcr (b : N) : bool := existsb (N.eqb b) [1; 2; 3; 4; 5; 6; 7; 14].
Definition eoi_count (b : N) : bool := (27 <=? b) && (b <=? 31).
(** When a run ends the interrupt state and the timers of the processor are kept in the REC *)
Definition interrupts_kept (h : hw) (fi : fin) (g0 : gic_state) (r' : recd) : Prop :=
  let live := fi_gic fi in let g := r_gic r' in
  (forall i, gic_ap0r g i = gic_ap0r live i /\ gic_ap1r g i = gic_ap1r live i) /\ gic_vmcr g = gic_vmcr live /\
  (forall i, i <= gf_nr_lrs (h_gic h) -> gic_lr g i = gic_lr live i) /\
  (forall b, N.testbit (gic_hcr g) b = N.testbit (if eoi_count b then gic_hcr live else gic_hcr g0) b) /\
  r_sys r' CNTP_CTL_EL0 = tm_pctl (fi_tm fi) /\ r_sys r' CNTP_CVAL_EL0 = tm_pcval (fi_tm fi) /\
  r_sys r' CNTV_CTL_EL0 = tm_vctl (fi_tm fi) /\ r_sys r' CNTV_CVAL_EL0 = tm_vcval (fi_tm fi).
(** ... and the host is told: the list registers, the bits of ICH_HCR_EL2 it owns and the count, the two status
    registers, the timers without the offsets, and the overflow of the performance monitor *)
Definition interrupts_told (h : hw) (fi : fin) (r' : recd) (x : rec_exit) : Prop :=
  let live := fi_gic fi in
  (forall i, ex_gicv3_lrs x i = if i <=? gf_nr_lrs (h_gic h) then gic_lr live i else 0) /\
  (forall b, N.testbit (ex_gicv3_hcr x) b = (host_hcr b || eoi_count b) && N.testbit (gic_hcr (r_gic r')) b) /\
  ex_gicv3_misr x = gic_misr live /\ ex_gicv3_vmcr x = gic_vmcr live /\
  ex_cntp_ctl x = tm_pctl (fi_tm fi) /\ (ex_cntp_cval x + r_sys r' CNTPOFF_EL2) mod 2 ^ 64 = tm_pcval (fi_tm fi) mod 2 ^ 64 /\
  ex_cntv_ctl x = tm_vctl (fi_tm fi) /\ (ex_cntv_cval x + r_sys r' CNTVOFF_EL2) mod 2 ^ 64 = tm_vcval (fi_tm fi) mod 2 ^ 64 /\
  ex_pmu_ovf x = if r_pmu_enabled r' then fi_ovf fi else 0.
(** The interrupt state when a REC is entered with the arguments [e] *)
Definition interrupts_given (h : hw) (e : rec_enter) (g g' : gic_state) : Prop :=
  (forall i, gic_lr g' i = if i <=? gf_nr_lrs (h_gic h) then en_gicv3_lrs e i else gic_lr g i) /\
  (forall b, N.testbit (gic_hcr g') b = N.testbit (if host_hcr b then en_gicv3_hcr e else gic_hcr g) b) /\
  (forall i, gic_ap0r g' i = gic_ap0r g i /\ gic_ap1r g' i = gic_ap1r g i) /\ gic_vmcr g' = gic_vmcr g.
(** A timer signals an interrupt: enabled (0), not masked (1) and its condition met (2) *)
Definition signals (ctl : N) : bool := N.testbit ctl 0 && negb (N.testbit ctl 1) && N.testbit ctl 2.
(** The realm runs with the timers [tm] only if their outputs are those the host
    knows, which are in the REC; an interrupt the host knows is masked (bits 18 and 19 of CNTHCTL_EL2) *)
Definition timers_known (tm : timers) (r r' : recd) : Prop :=
  signals (tm_vctl tm) = signals (r_sys r CNTV_CTL_EL0) /\ signals (tm_pctl tm) = signals (r_sys r CNTP_CTL_EL0) /\
  N.testbit (r_sys r' CNTHCTL_EL2) 18 = signals (tm_vctl tm) /\ N.testbit (r_sys r' CNTHCTL_EL2) 19 = signals (tm_pctl tm) /\
  (forall q, In q [CNTV_CTL_EL0; CNTV_CVAL_EL0; CNTP_CTL_EL0; CNTP_CVAL_EL0] -> r_sys r' q = r_sys r q).
