(** Vocabulary of the theorems about execution contexts (RECs) and about the
    memory that the monitor writes for a realm.  Nothing here models code. *)
From Coq Require Import NArith ZArith List Bool.
From Verif Require Import Bits S2tte State Granule RecFields RmiRec Psci Gic Esr Rsi RecRun Arch Mmu Machine Spec SpecStep SpecExit.
Import ListNotations.
Local Open Scope N_scope.

(** ** C11: the reply to a host call *)

(** A host call structure at byte [off] of a page has 31 registers, one per
    word, after its first word *)
Definition host_reply (f : N -> N) (off : N) (regs : N -> N) : N -> N :=
  fun w => if (off / 8 <? w) && (w <? off / 8 + 32) then regs (w - off / 8 - 1) else f w.

(** The host enters the REC [rec] of realm [a], which waits for the reply to a
    host call whose structure is at [ipa], with the registers [regs] *)
Definition host_call_reply (m : mstate) (o : op) (a ipa : N) (regs : N -> N) : Prop :=
  exists p rec ra e fi tm r, o = OEnter p rec ra (Some e) fi tm /\ rec_is m rec r /\ r_g_rd r = a /\ r_host_call r = true /\
    ipa = r_regs r 1 /\ regs = en_gprs e.

(** ** C20: registers the host gives to a realm *)

(** The address of the last abort, in units of bytes: HPFAR_EL2 [43:4] *)
Definition fault_ipa (hpfar : N) : N := field hpfar 4 40 * 4096.

(** The host gives the value [v] to register [i] of the REC [r], which it enters
    with the arguments [e] *)
Inductive given (r : recd) (e : rec_enter) : N -> N -> Prop :=
(* the destination of a load from the unprotected half, which the host emulates:
   a data abort (class 36) with a valid syndrome (bit 24) that is no store (bit 6) *)
| gv_load : forall i, N.testbit (en_flags e) 0 = true -> N.testbit (en_flags e) 1 = false ->
    field (r_last_esr r) 26 6 = 36 -> N.testbit (r_last_esr r) 24 = true -> N.testbit (r_last_esr r) 6 = false ->
    i = field (r_last_esr r) 16 5 -> i <> 31 ->
    2 ^ (ipa_bits (r_ctx r) - 1) <= fault_ipa (r_last_hpfar r) -> fault_ipa (r_last_hpfar r) < 2 ^ ipa_bits (r_ctx r) ->
    given r e i (Z.to_N (load_value (r_last_esr r) (en_gprs e 0)))
(* the results of a RIPAS change: success, how far it got, and whether the host
   rejected the rest, which it can if the change is to RAM *)
| gv_ripas : forall i v, let q := r_set_ripas r in sr_base q <> sr_top q ->
    In (i, v) [(0, 0); (1, sr_addr q);
               (2, if (sr_ripas q =? 1) && negb (sr_addr q =? sr_top q) && N.testbit (en_flags e) 4 then 1 else 0)] ->
    given r e i v
(* the result of a host call: success *)
| gv_host : r_host_call r = true -> given r e 0 0.

(** Registers that belong to the monitor (those of EL2) and the timers, which
    go on by themselves *)
Definition own_regs : list sysreg := [HCR_EL2; CNTHCTL_EL2; CPTR_EL2; CNTP_CTL_EL0; CNTP_CVAL_EL0; CNTV_CTL_EL0; CNTV_CVAL_EL0].

(** The host emulates the access that caused the last exit: a data abort with
    a valid syndrome *)
Definition emulated (r : recd) (e : rec_enter) : Prop :=
  N.testbit (en_flags e) 0 = true /\ N.testbit (en_flags e) 1 = false /\ field (r_last_esr r) 26 6 = 36 /\ N.testbit (r_last_esr r) 24 = true.
(** The host answers with an external abort.  It can only if the last exit was
    a data abort outside the protected half. *)
Definition asked_sea (r : recd) (e : rec_enter) : Prop :=
  N.testbit (en_flags e) 1 = true /\ field (r_last_esr r) 26 6 = 36 /\ ~ protected (r_ctx r) (fault_ipa (r_last_hpfar r)).
(** The REC takes an external abort (fault status 16) for its last access *)
Definition abort_taken (r r' : recd) : Prop :=
  (~ (from_el0 (r_pstate r) = true /\ aarch32 (r_pstate r) = true /\ N.testbit (r_sys r SCTLR2_EL1) 5 = true) ->
    r_pc r' = vector_entry (r_sys r VBAR_EL1) (r_pstate r) (N.testbit (r_sys r SCTLR2_EL1) 5)) /\
  r_pstate r' = pstate_el1h /\ r_sys r' FAR_EL1 = r_last_far r /\ r_sys r' ELR_EL1 = r_pc r /\ r_sys r' SPSR_EL1 = r_pstate r /\
  injected_esr (r_last_esr r) (r_pstate r) 16 (r_sys r' ESR_EL1) /\
  (forall q, ~ In q ([FAR_EL1; ELR_EL1; SPSR_EL1; ESR_EL1] ++ own_regs) -> r_sys r' q = r_sys r q).

(** ** C19: PSCI requests *)

(** The REC executes a PSCI call with the function number [n]: the identifiers
    are 0x84000000 and following, or 0xC4000000 and following *)
Definition psci_request (m : mstate) (o : op) (a : N) (r : recd) (n : N) : Prop :=
  smc m o a r /\ In (r_regs r 0 mod 2 ^ 32) [0x84000000 + n; 0xC4000000 + n].
Definition PSCI_CPU_OFF : N := 2.
Definition PSCI_CPU_ON : N := 3.
Definition PSCI_AFFINITY : N := 4.
(** The request a REC waits for; the identifier is in x0 *)
Definition waits (r : recd) (n : N) : Prop := r_psci_pending r = true /\ In (r_regs r 0) [0x84000000 + n; 0xC4000000 + n].

(** The REC is on: it executes or can be entered *)
Definition turned_on (m : mstate) (a : N) (r : recd) : Prop := r_runnable r = true \/ exists p, executes m p a.

(** The REC [rc], which waits, is answered: [v] in x0, zero in x1 to x3; everything
    else is as before *)
Definition answered (rc : recd) (v : N) (rc' : recd) : Prop :=
  r_psci_pending rc' = false /\ r_regs rc' 0 = v /\ (forall i, In i [1; 2; 3] -> r_regs rc' i = 0) /\
  (forall i, 4 <= i -> r_regs rc' i = r_regs rc i) /\ set_psci_pending (set_regs rc' (r_regs rc)) true = rc.
(** The REC [rt] is started as [rc] asks: at the address in x2, with the value in x3
    in x0, in the mode EL1h with interrupts masked, with the system control
    register reset except for the byte order, which is the caller's *)
Definition SCTLR_RESET : N := 2 ^ 3 + 2 ^ 4 + 2 ^ 5 + 2 ^ 6 + 2 ^ 11 + 2 ^ 16 + 2 ^ 18 + 2 ^ 22 + 2 ^ 23.
Definition started (rc rt rt' : recd) : Prop :=
  r_runnable rt' = true /\ r_pc rt' = r_regs rc 2 /\ r_regs rt' 0 = r_regs rc 3 /\ (forall i, i <> 0 -> r_regs rt' i = r_regs rt i) /\
  r_pstate rt' = pstate_el1h /\ r_sys rt' SCTLR_EL1 = SCTLR_RESET + field (r_sys rc SCTLR_EL1) 25 1 * 2 ^ 25 /\
  (forall q, q <> SCTLR_EL1 -> r_sys rt' q = r_sys rt q) /\
  set_sys (set_pstate (set_pc (set_regs (set_runnable rt' false) (r_regs rt)) (r_pc rt)) (r_pstate rt)) (r_sys rt) = rt.

(** ** C21: what an exit tells the host *)

(** The members of an exit record that depend on the realm: the reason, the
    three registers of the exception, the general registers, the range and value of
    a RIPAS change and the immediate of a host call.  The remaining members are the
    interrupt state and the timers. *)
Definition report (x : rec_exit) (reason esr far hpfar : N) (gprs : N -> N) (base top value imm : N) : Prop :=
  ex_reason x = reason /\ ex_esr x = esr /\ ex_far x = far /\ ex_hpfar x = hpfar /\ (forall i, ex_gprs x i = gprs i) /\
  ex_ripas_base x = base /\ ex_ripas_top x = top /\ ex_ripas_value x = value /\ ex_imm x = imm.
Definition no_gprs : N -> N := fun _ => 0.
Definition one_gpr (v : N) : N -> N := fun i => if i =? 0 then v else 0.
Definition first_gprs (n : N) (regs : N -> N) : N -> N := fun i => if i <? n then regs i else 0.

(** Only the fields (low bit, width) of the list are kept *)
Definition kept (w : N) (l : list (N * N)) : N := fold_right (fun f s => field w (fst f) (snd f) * 2 ^ fst f + s) 0 l.
(** The class, the kind of external abort, whether FAR is valid, the type of external abort
    and the fault status *)
Definition abort_fields : list (N * N) := [(26, 6); (11, 2); (10, 1); (9, 1); (0, 6)].
(** Further whether the following are valid, the size, the width of the register and store or load *)
Definition access_fields : list (N * N) := abort_fields ++ [(24, 1); (22, 2); (15, 1); (6, 1)].
Definition serror_fields : list (N * N) := [(24, 1); (10, 3); (9, 1); (0, 6)].
Definition wait_fields : list (N * N) := [(26, 6); (0, 1)].
Definition external (esr : N) : Prop := field esr 0 6 = 16 \/ (19 <= field esr 0 6 /\ field esr 0 6 <= 23).
Definition class (ev : event) : N := field (ev_esr ev) 26 6.
(** The value of register number [n], where 31 is zero *)
Definition source (r : recd) (n : N) : N := if n =? 31 then 0 else r_regs r n.
Definition no_memory (G : N -> granule) (x : s2ctx) (ipa : N) : Prop := forall pa, page_at G x ipa <> PAssigned RAM pa.

Definition RSI_CONTINUE : N := 5.
Definition RSI_CONFIG : N := 6.
Definition RSI_HOST : N := 9.
(** What the host is told when the REC [r] of the realm [d] has the exception [ev] *)
Inductive tells (m : mstate) (o : op) (a : N) (d : rdesc) (r : recd) (ev : event) (x : rec_exit) : Prop :=
(* interrupts, those of timers, and exceptions without a report *)
| tl_irq : report x 1 0 0 0 no_gprs 0 0 0 0 -> tells m o a d r ev x
| tl_fiq : ev_exc ev = ExcFiq -> report x 2 0 0 0 no_gprs 0 0 0 0 -> tells m o a d r ev x
| tl_other : ev_exc ev = ExcOther \/ (ev_exc ev = ExcSync /\ (class ev = 32 \/ ~ In (class ev) [1; 22; 23; 24; 32; 36; 7; 25; 29])) ->
    report x 0 0 0 0 no_gprs 0 0 0 0 -> tells m o a d r ev x
| tl_serror : ev_exc ev = ExcSerror -> report x 6 (kept (ev_esr ev) serror_fields) 0 0 no_gprs 0 0 0 0 -> tells m o a d r ev x
(* WFI and WFE *)
| tl_wait : ev_exc ev = ExcSync -> class ev = 1 -> report x 0 (kept (ev_esr ev) wait_fields) 0 0 no_gprs 0 0 0 0 -> tells m o a d r ev x
(* a write to an interrupt register: which, and the value *)
| tl_icc : ev_exc ev = ExcSync -> class ev = 24 -> N.testbit (ev_esr ev) 0 = false ->
    report x 0 (ev_esr ev) 0 0 (one_gpr (source r (field (ev_esr ev) 5 5))) 0 0 0 0 -> tells m o a d r ev x
(* an external abort *)
| tl_external : ev_exc ev = ExcSync -> In (class ev) [32; 36] -> external (ev_esr ev) ->
    report x 0 (kept (ev_esr ev) abort_fields) 0 0 no_gprs 0 0 0 0 -> tells m o a d r ev x
(* an abort in the protected half, or of a program in AArch32 state: the
   address is that of the page, there is no virtual address and no register *)
| tl_private : ev_exc ev = ExcSync -> ~ external (ev_esr ev) -> fault_ipa (ev_hpfar ev) < 2 ^ ipa_bits (r_ctx r) ->
    (class ev = 36 /\ (protected (r_ctx r) (fault_ipa (ev_hpfar ev)) \/ aarch32 (r_pstate r) = true)) \/
    (class ev = 32 /\ protected (r_ctx r) (fault_ipa (ev_hpfar ev))) ->
    report x 0 (kept (ev_esr ev) abort_fields) 0 (ev_hpfar ev) no_gprs 0 0 0 0 -> tells m o a d r ev x
(* an access to the unprotected half: the offset in the page and, for a
   store, the register masked to the size of the access *)
| tl_shared : ev_exc ev = ExcSync -> class ev = 36 -> ~ external (ev_esr ev) -> fault_ipa (ev_hpfar ev) < 2 ^ ipa_bits (r_ctx r) ->
    ~ protected (r_ctx r) (fault_ipa (ev_hpfar ev)) -> aarch32 (r_pstate r) = false ->
    report x 0 (kept (ev_esr ev) access_fields) (ev_far ev mod 4096) (ev_hpfar ev)
      (one_gpr (if N.testbit (ev_esr ev) 6 then source r (field (ev_esr ev) 16 5) mod 2 ^ (8 * 2 ^ field (ev_esr ev) 22 2) else 0)) 0 0 0 0 ->
    tells m o a d r ev x
(* calls: the range and value of a RIPAS change *)
| tl_ripas : rsi_call m o a r RSI_SET -> report x 4 0 0 0 no_gprs (r_regs r 1) (r_regs r 2) (r_regs r 3 mod 2 ^ 32) 0 -> tells m o a d r ev x
(* the structure of a host call, which is in memory of the realm: 31 registers and the immediate *)
| tl_host : forall f, rsi_call m o a r RSI_HOST -> protected (rd_ctx d) (r_regs r 1) -> page_words (m_gr m) (page_at (m_gr m) (rd_ctx d) (r_regs r 1)) = Some f ->
    report x 5 0 0 0 (first_gprs 31 (fun i => f (r_regs r 1 mod 4096 / 8 + 1 + i))) 0 0 0 (f (r_regs r 1 mod 4096 / 8) mod 2 ^ 32) -> tells m o a d r ev x
(* PSCI: the identifier, and for requests about another REC its name *)
| tl_psci : psci_request m o a r PSCI_CPU_ON \/ psci_request m o a r PSCI_AFFINITY ->
    report x 3 0 0 0 (first_gprs 2 (r_regs r)) 0 0 0 0 -> tells m o a d r ev x
| tl_power : psci_request m o a r 1 \/ psci_request m o a r PSCI_CPU_OFF \/ psci_request m o a r PSCI_OFF \/ psci_request m o a r PSCI_RESET ->
    report x 3 0 0 0 (first_gprs 1 (r_regs r)) 0 0 0 0 -> tells m o a d r ev x
(* a call needs memory of the realm that is not there: the address of the page and a translation fault of some level *)
| tl_fault : forall level, rsi_call m o a r RSI_CONTINUE \/ rsi_call m o a r RSI_CONFIG \/ rsi_call m o a r RSI_HOST ->
    protected (rd_ctx d) (r_regs r 1) -> no_memory (m_gr m) (rd_ctx d) (r_regs r 1) -> (0 <= level <= 3)%Z ->
    report x 0 (36 * 2 ^ 26 + (4 + Z.to_N level)) 0 (r_regs r 1 / 256) no_gprs 0 0 0 0 -> tells m o a d r ev x.

(** Two records of a request to change RIPAS that ask for the same; only the
    response of the host may differ *)
Definition same_req (q' q : set_ripas_req) : Prop :=
  sr_base q' = sr_base q /\ sr_top q' = sr_top q /\ sr_addr q' = sr_addr q /\ sr_ripas q' = sr_ripas q /\ sr_change_destroyed q' = sr_change_destroyed q.
