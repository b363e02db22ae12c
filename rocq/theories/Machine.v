(** The whole system: the monitor, the host, the realms that run and the memory.
    A step is one command of the host, one exit of a realm, or one action of the
    host or of a realm on registers or memory.  Commands and exits are executed
    without interruption (the interleaving of their accesses is the subject of
    Conc*.v). *)
From Coq Require Import NArith ZArith List Bool.
From Verif Require Import Bits S2tte State Granule RecFields Measure RmiGranule RmiRtt RmiRealm Psci RmiRec Gic Esr Rsi RecRun Arch Mmu.
Import ListNotations.
Local Open Scope N_scope.

(** lib/smc/include/smc-rmi.h:15-36 *)
Definition RMI_ABI_VERSION : N := 65536.

(** runtime/rmi/system.c:12-23 *)
Definition smc_version (req : N) : res :=
  mkRes (if req =? RMI_ABI_VERSION then RMI_SUCCESS else RMI_ERROR_INPUT) RMI_ABI_VERSION RMI_ABI_VERSION 0 0.

(** runtime/rmi/feature.c:102-112 *)
Definition smc_read_feature_register (c : cfg) (index : N) : res :=
  mkRes RMI_SUCCESS (if index =? 0 then c_feat0 c else 0) 0 0 0.

(** A command of the host other than RMI_REC_ENTER.  Arguments are those of the
    handler table (runtime/core/handler.c:135-193); the additional ones stand for
    the outside world: [el3] whether EL3 grants the change of address space,
    [readable] whether the host's page can be read, [params] the decoded
    contents of the host's parameter page ([None] when it cannot be read). *)
Inductive cmd :=
| KUnknown
| KVersion (req : N)
| KFeatures (index : N)
| KGranuleDelegate (el3 : bool) (addr : N)
| KGranuleUndelegate (el3 : bool) (addr : N)
| KDataCreate (readable : bool) (rd data map src flags : N)
| KDataCreateUnknown (rd data map : N)
| KDataDestroy (rd map : N)
| KRealmActivate (rd : N)
| KRealmCreate (params : option rparams) (rd params_addr : N)
| KRealmDestroy (rd : N)
| KRecCreate (params : option rec_params) (rd rec params_addr : N)
| KRecDestroy (rec : N)
| KRttCreate (rd rtt map ulevel : N)
| KRttDestroy (rd map ulevel : N)
| KRttMapUnprotected (rd map ulevel s2tte : N)
| KRttReadEntry (rd map ulevel : N)
| KRttUnmapUnprotected (rd map ulevel : N)
| KPsciComplete (calling target status : N)
| KRttFold (rd map ulevel : N)
| KRecAuxCount (rd : N)
| KRttInitRipas (rd base top : N)
| KRttSetRipas (rd rec base top : N).

Definition just (p : prog N) : prog res := r <- p ;; Ret (res0 r).

(** What the monitor reads from the host's page at [a] *)
Definition host_page (G : N -> granule) (a : N) (readable : bool) : option (N -> N) :=
  if readable then match g_mem (G a) with CW f => Some f | _ => None end else None.

(** handler.c:135-193: the handlers; handler.c:337-339: x0 of an unknown call.  [G] is
    the memory when the command starts. *)
Definition cmd_prog (c : cfg) (G : N -> granule) (k : cmd) : prog res :=
  match k with
  | KUnknown => Ret (res0 SMC_UNKNOWN)
  | KVersion r => Ret (smc_version r)
  | KFeatures i => Ret (smc_read_feature_register c i)
  | KGranuleDelegate el3 a => just (smc_granule_delegate c el3 a)
  | KGranuleUndelegate el3 a => just (smc_granule_undelegate c el3 a)
  | KDataCreate ok rd data map src flags => just (smc_data_create c (host_page G src ok) rd data map src flags)
  | KDataCreateUnknown rd data map => just (smc_data_create_unknown c rd data map)
  | KDataDestroy rd map => smc_data_destroy c rd map
  | KRealmActivate rd => just (smc_realm_activate c rd)
  | KRealmCreate p rd pa => just (smc_realm_create c p rd pa)
  | KRealmDestroy rd => just (smc_realm_destroy c rd)
  | KRecCreate p rd rec pa => just (smc_rec_create c p rd rec pa)
  | KRecDestroy rec => just (smc_rec_destroy c rec)
  | KRttCreate rd rtt map ul => just (smc_rtt_create c rd rtt map ul)
  | KRttDestroy rd map ul => smc_rtt_destroy c rd map ul
  | KRttMapUnprotected rd map ul w => just (smc_rtt_map_unprotected c rd map ul w)
  | KRttReadEntry rd map ul => smc_rtt_read_entry c rd map ul
  | KRttUnmapUnprotected rd map ul => smc_rtt_unmap_unprotected c rd map ul
  | KPsciComplete a b st => just (smc_psci_complete c a b st)
  | KRttFold rd map ul => smc_rtt_fold c rd map ul
  | KRecAuxCount rd => smc_rec_aux_count c rd
  | KRttInitRipas rd base top => smc_rtt_init_ripas c rd base top
  | KRttSetRipas rd rec base top => smc_rtt_set_ripas c rd rec base top
  end.

(** A CPU that executes a REC: the REC, the exit record under construction
    (rmi/run.c:255-313, a local of smc_rec_enter) and whether the SIMD registers
    hold the context of the REC (struct simd_context) *)
Record running := mkRun { ru_rec : N; ru_exit : rec_exit; ru_simd : bool }.

(** [m_slots p] are the slot buffers of CPU [p], [m_att a] the attestation data
    kept in the auxiliary granules of REC [a] (rec.h:157-200) *)
Record mstate := mkM {
  m_locks : N -> bool;
  m_slots : N -> N -> bool;
  m_gr : N -> granule;
  m_vmids : N -> bool;
  m_tlb : list tlbe;
  m_cpu : N -> option running;
  m_att : N -> att
}.

Definition cpu_state (m : mstate) (p : N) : state := mkS (m_locks m) (m_slots m p) (m_gr m) (m_vmids m) (m_tlb m).
Definition back (m : mstate) (p : N) (s : state) (cpu : N -> option running) (at_ : N -> att) : mstate :=
  mkM (s_locks s) (upd (m_slots m) p (s_slots s)) (s_gr s) (s_vmids s) (s_tlb s) cpu at_.
Definition set_m_gr (m : mstate) (a : N) (g : granule) : mstate :=
  mkM (m_locks m) (m_slots m) (upd (m_gr m) a g) (m_vmids m) (m_tlb m) (m_cpu m) (m_att m).

(** rmi/rec.c:395-418: the attestation data of a new REC is zeroed with its
    auxiliary granules *)
Definition att_after (k : cmd) (r : res) (f : N -> att) : N -> att :=
  match k with
  | KRecCreate _ _ rec _ => if x0 r =? RMI_SUCCESS then upd f rec att_zero else f
  | _ => f
  end.

(** Registers of the REC that neither its realm nor the host writes while it
    runs *)
Definition el2_sysreg (x : sysreg) : bool :=
  match x with CNTHCTL_EL2 | CNTVOFF_EL2 | CNTPOFF_EL2 | VMPIDR_EL2 | HCR_EL2 | CPTR_EL2 => true | _ => false end.
Definition realm_regs (r : recd) (regs : N -> N) (sp pc pstate : N) (sys : sysreg -> N) : recd :=
  mkRec (r_idx r) (r_runnable r) regs sp pc pstate
        (fun x => if el2_sysreg x then r_sys r x else sys x)
        (r_gic r) (r_vttbr r) (r_vtcr r) (r_common_hcr r) (r_mdcr r) (r_set_ripas r) (r_g_rd r) (r_pmu_enabled r)
        (r_pmu_num_ctrs r) (r_algorithm r) (r_simd r) (r_ctx r) (r_last_esr r) (r_last_hpfar r) (r_last_far r)
        (r_psci_pending r) (r_aux r) (r_serror_vsesr r) (r_serror_inject r) (r_host_call r).
(** PSTATE.M of code at EL1 or EL0: EL0t, EL1t, EL1h *)
Definition el10_mode (pstate : N) : bool := let m := pstate mod 16 in (m =? 0) || (m =? 4) || (m =? 5).

(** Table walks are made in the realm physical address space: they abort on
    granules of the non-secure address space *)
Definition page_of (a : N) : N := a - a mod 4096.
Definition tt_read (G : N -> granule) (a : N) : option N :=
  match g_state (G (page_of a)), g_mem (G (page_of a)) with
  | NS, _ => None
  | _, CW f => Some (f ((a mod 4096) / 8))
  | _, _ => None
  end.
(** What an access of the REC [r] to [ipa] reaches when no TLB holds an entry *)
Definition rec_xlat (G : N -> granule) (r : recd) (ipa : N) : xlat := stage2 (tt_read G) (r_vttbr r) (r_vtcr r) ipa.
(** The granule protection check (RME): non-secure accesses reach granules of
    the non-secure address space only, realm accesses the others only *)
Definition gpt_ok (g : granule) (ns : bool) : bool := Bool.eqb ns (gstate_eqb (g_state g) NS).

Inductive op :=
| OCmd (p : N) (k : cmd)
| OEnter (p rec run_addr : N) (enter : option rec_enter) (fi : fin) (tm : timers)
| OExit (p : N) (ev : event) (fi : fin) (tm : timers)
| ORegs (p : N) (regs : N -> N) (sp pc pstate : N) (sys : sysreg -> N)
| OLoad (p ipa rt : N)
| OStore (p ipa v : N)
| OFill (p ipa : N)
| OAux (p a : N) (f : N -> N)
| OHost (a i v : N).

Inductive reply := NoReply | Reply (r : res) | Entered | Exited (ret : N) (x : option rec_exit).

(** [RPanic]: the monitor stops; [RDeadlock]: it waits for a lock it holds;
    [RSmash]: a realm reaches a structure of the monitor; [RNot]: the operation
    is not possible in this state (the access faults, the CPU is busy...) *)
Inductive result := RDone (m : mstate) (r : reply) | RPanic | RDeadlock | RSmash | RNot.

Definition running_rec (m : mstate) (p : N) : option (running * recd) :=
  match m_cpu m p with
  | Some ru => match g_mem (m_gr m (ru_rec ru)) with CRec r => Some (ru, r) | _ => None end
  | None => None
  end.
Definition put_m_rec (m : mstate) (a : N) (r : recd) : mstate :=
  set_m_gr m a (mkG (g_state (m_gr m a)) (g_ref (m_gr m a)) (CRec r)).

Definition step (c : cfg) (h : hw) (m : mstate) (o : op) : result :=
  match o with
  | OCmd p k =>
    match m_cpu m p with
    | Some _ => RNot
    | None =>
      match run (cmd_prog c (m_gr m) k) (cpu_state m p) with
      | Done r s => RDone (back m p s (m_cpu m) (att_after k r (m_att m))) (Reply r)
      | Panicked => RPanic
      | Deadlock => RDeadlock
      end
    end
  | OEnter p rec run_addr enter fi tm =>
    match m_cpu m p with
    | Some _ => RNot
    | None =>
      match run (smc_rec_enter c h fi tm rec run_addr enter (m_att m rec)) (cpu_state m p) with
      | Done (EReturn ret x) s => RDone (back m p s (m_cpu m) (m_att m)) (Exited ret x)
      | Done (ERun x) s => RDone (back m p s (upd (m_cpu m) p (Some (mkRun rec x false))) (m_att m)) Entered
      | Panicked => RPanic
      | Deadlock => RDeadlock
      end
    end
  | OExit p ev fi tm =>
    match m_cpu m p with
    | None => RNot
    | Some ru =>
      let rec := ru_rec ru in
      match run (rec_run_exit c h ev fi tm rec (ru_exit ru) (m_att m rec) (ru_simd ru)) (cpu_state m p) with
      | Done (EReturn ret x, a, _) s => RDone (back m p s (upd (m_cpu m) p None) (upd (m_att m) rec a)) (Exited ret x)
      | Done (ERun x, a, simd) s =>
        RDone (back m p s (upd (m_cpu m) p (Some (mkRun rec x simd))) (upd (m_att m) rec a)) Entered
      | Panicked => RPanic
      | Deadlock => RDeadlock
      end
    end
  | ORegs p regs sp pc pstate sys =>
    match running_rec m p with
    | Some (ru, r) =>
      if el10_mode pstate then RDone (put_m_rec m (ru_rec ru) (realm_regs r regs sp pc pstate sys)) NoReply else RNot
    | None => RNot
    end
  | OLoad p ipa rt =>
    match running_rec m p with
    | Some (ru, r) =>
      match rec_xlat (m_gr m) r ipa with
      | XOk _ _ oa ns _ =>
        let g := m_gr m (page_of oa) in
        if gpt_ok g ns then
          match g_mem g with
          | CW f => RDone (put_m_rec m (ru_rec ru) (set_reg r rt (f ((oa mod 4096) / 8)))) NoReply
          | _ => RSmash
          end
        else RNot
      | XFault => RNot
      end
    | None => RNot
    end
  | OStore p ipa v =>
    match running_rec m p with
    | Some (ru, r) =>
      match rec_xlat (m_gr m) r ipa with
      | XOk _ _ oa ns _ =>
        let g := m_gr m (page_of oa) in
        if gpt_ok g ns then
          match g_mem g with
          | CW f => RDone (set_m_gr m (page_of oa) (mkG (g_state g) (g_ref g) (CW (upd f ((oa mod 4096) / 8) v)))) NoReply
          | _ => RSmash
          end
        else RNot
      | XFault => RNot
      end
    | None => RNot
    end
  | OFill p ipa =>
    match running_rec m p with
    | Some (ru, r) =>
      match rec_xlat (m_gr m) r ipa with
      | XOk l w oa ns xn =>
        RDone (mkM (m_locks m) (m_slots m) (m_gr m) (m_vmids m)
                   (mkTlbe (vttbr_vmid (r_vttbr r) (r_vtcr r)) l (ipa - ipa mod 2 ^ arch_lsb l) w :: m_tlb m) (m_cpu m) (m_att m)) NoReply
      | XFault => RNot
      end
    | None => RNot
    end
  | OAux p a f =>
    match running_rec m p with
    | Some (ru, r) =>
      if existsb (N.eqb a) (r_aux r) then RDone (set_m_gr m a (mkG (g_state (m_gr m a)) (g_ref (m_gr m a)) (CW f))) NoReply
      else RNot
    | None => RNot
    end
  | OHost a i v =>
    let g := m_gr m a in
    match g_state g, g_mem g with
    | NS, CW f => RDone (set_m_gr m a (mkG NS (g_ref g) (CW (upd f i v)))) NoReply
    | _, _ => RNot
    end
  end.

(** The system when the monitor starts: every granule belongs to the host, with
    any contents; nothing is reserved or mapped. *)
Definition init (mem : N -> N -> N) : mstate :=
  mkM (fun _ => false) (fun _ _ => false) (fun a => mkG NS 0 (CW (mem a))) (fun _ => false) [] (fun _ => None) (fun _ => att_zero).

(** A history: the operations that took place, with their replies *)
Inductive steps (c : cfg) (h : hw) : mstate -> list (op * reply) -> mstate -> Prop :=
| st_nil : forall m, steps c h m [] m
| st_cons : forall m o r m1 l m', step c h m o = RDone m1 r -> steps c h m1 l m' -> steps c h m ((o, r) :: l) m'.
