(** State of the monitor and of the memory it manages, and the small language
    in which the commands are written. *)
From Coq Require Import NArith ZArith List Bool.
From Verif Require Import Bits S2tte.
Import ListNotations.
Local Open Scope N_scope.

(** lib/granule/include/granule_types.h:75-203 *)
Inductive gstate :=
| NS | DELEGATED | RD | REC | REC_AUX | DATA | RTT | PDEV | PDEV_AUX | VDEV | VDEV_AUX.

Definition gstate_eqb (a b : gstate) : bool :=
  match a, b with
  | NS, NS | DELEGATED, DELEGATED | RD, RD | REC, REC | REC_AUX, REC_AUX | DATA, DATA
  | RTT, RTT | PDEV, PDEV | PDEV_AUX, PDEV_AUX | VDEV, VDEV | VDEV_AUX, VDEV_AUX => true
  | _, _ => false
  end.

(** Platform and hardware configuration, fixed during execution.  [c_gran]
    tells whether an address is a granule known to the monitor
    (plat_granule_addr_to_idx succeeds, Plat.v); [c_hash alg l] is the digest
    of the serialisation of the fields [l]; the remaining fields are values
    read from ID registers. *)
Record cfg := mkCfg {
  c_gran : N -> bool;
  c_pa_width : N;              (* arch_feat_get_pa_width *)
  c_vmid16 : bool;             (* is_feat_vmid16_present *)
  c_feat0 : N;                 (* get_feature_register_0, runtime/rmi/feature.c:15-100 *)
  c_hpmn0 : bool;              (* is_feat_hpmn0_present *)
  c_mdcr_el2 : N;              (* read_mdcr_el2 *)
  c_hash : N -> list N -> N
}.

(** runtime/include/realm.h:15-17 *)
Definition REALM_NEW : N := 0.
Definition REALM_ACTIVE : N := 1.
Definition REALM_SYSTEM_OFF : N := 2.

(** lib/arch/include/simd.h, struct simd_config (sve_en, sve_vq; SME is never
    enabled for a realm) *)
Record simd_config := mkSimd { sve_en : bool; sve_vq : N }.

(** runtime/include/realm.h:20-65, struct rd.  Digests and the
    personalization value are single numbers. *)
Record rdesc := mkRd {
  rd_state : N;
  rd_rec_count : N;
  rd_meas : N -> N;            (* slot 0 is the RIM, 1..4 the REMs *)
  rd_ctx : s2ctx;
  rd_num_rec_aux : N;
  rd_algorithm : N;
  rd_pmu_enabled : bool;
  rd_pmu_num_ctrs : N;
  rd_simd : simd_config;
  rd_rpv : N
}.

Definition ctx_zero : s2ctx := mkCtx 0 0 0 0 0 false.
Definition rd_zero : rdesc :=
  mkRd 0 0 (fun _ => 0) ctx_zero 0 0 false 0 (mkSimd false 0) 0.

(** runtime/include/rec.h:107-155, struct sysreg_state without the GIC part *)
Inductive sysreg :=
| SP_EL0 | SP_EL1 | ELR_EL1 | SPSR_EL1 | PMCR_EL0 | TPIDRRO_EL0 | TPIDR_EL0 | CSSELR_EL1
| SCTLR_EL1 | SCTLR2_EL1 | ACTLR_EL1 | CPACR_EL1 | ZCR_EL1 | TTBR0_EL1 | TTBR1_EL1 | TCR_EL1
| ESR_EL1 | AFSR0_EL1 | AFSR1_EL1 | FAR_EL1 | MAIR_EL1 | VBAR_EL1 | CONTEXTIDR_EL1 | TPIDR_EL1
| AMAIR_EL1 | CNTKCTL_EL1 | PAR_EL1 | MDSCR_EL1 | MDCCINT_EL1 | DISR_EL1 | MPAM0_EL1
| CNTHCTL_EL2 | CNTVOFF_EL2 | CNTPOFF_EL2 | CNTP_CTL_EL0 | CNTP_CVAL_EL0 | CNTV_CTL_EL0
| CNTV_CVAL_EL0 | VMPIDR_EL2 | HCR_EL2 | CPTR_EL2.

Definition sysreg_id (r : sysreg) : N :=
  match r with
  | SP_EL0 => 0 | SP_EL1 => 1 | ELR_EL1 => 2 | SPSR_EL1 => 3 | PMCR_EL0 => 4 | TPIDRRO_EL0 => 5
  | TPIDR_EL0 => 6 | CSSELR_EL1 => 7 | SCTLR_EL1 => 8 | SCTLR2_EL1 => 9 | ACTLR_EL1 => 10
  | CPACR_EL1 => 11 | ZCR_EL1 => 12 | TTBR0_EL1 => 13 | TTBR1_EL1 => 14 | TCR_EL1 => 15
  | ESR_EL1 => 16 | AFSR0_EL1 => 17 | AFSR1_EL1 => 18 | FAR_EL1 => 19 | MAIR_EL1 => 20
  | VBAR_EL1 => 21 | CONTEXTIDR_EL1 => 22 | TPIDR_EL1 => 23 | AMAIR_EL1 => 24 | CNTKCTL_EL1 => 25
  | PAR_EL1 => 26 | MDSCR_EL1 => 27 | MDCCINT_EL1 => 28 | DISR_EL1 => 29 | MPAM0_EL1 => 30
  | CNTHCTL_EL2 => 31 | CNTVOFF_EL2 => 32 | CNTPOFF_EL2 => 33 | CNTP_CTL_EL0 => 34
  | CNTP_CVAL_EL0 => 35 | CNTV_CTL_EL0 => 36 | CNTV_CVAL_EL0 => 37 | VMPIDR_EL2 => 38
  | HCR_EL2 => 39 | CPTR_EL2 => 40
  end.

(** Update of a function at one point, used for register files and tables. *)
Definition upd {A} (f : N -> A) (k : N) (v : A) : N -> A := fun x => if x =? k then v else f x.
Definition upd_sys (f : sysreg -> N) (r : sysreg) (v : N) : sysreg -> N :=
  fun x => if sysreg_id x =? sysreg_id r then v else f x.

(** lib/gic/include/gic.h, struct gic_cpu_state *)
Record gic_state := mkGic {
  gic_ap0r : N -> N; gic_ap1r : N -> N; gic_vmcr : N; gic_hcr : N; gic_lr : N -> N; gic_misr : N
}.
Definition gic_zero : gic_state := mkGic (fun _ => 0) (fun _ => 0) 0 0 (fun _ => 0) 0.

(** rec.h:243-251, set_ripas *)
Record set_ripas_req := mkReq {
  sr_base : N; sr_top : N; sr_addr : N; sr_ripas : N; sr_change_destroyed : N; sr_response : N
}.
Definition req_zero := mkReq 0 0 0 0 0 0.

(** runtime/include/rec.h:224-310, struct rec.  Pointers to granules are
    addresses.  Not modelled: PAuth keys, the pointers into mapped aux
    granules, the pointer to the per-CPU non-secure state. *)
Record recd := mkRec {
  r_idx : N;
  r_runnable : bool;
  r_regs : N -> N;
  r_sp_el0 : N;
  r_pc : N;
  r_pstate : N;
  r_sys : sysreg -> N;
  r_gic : gic_state;
  r_vttbr : N; r_vtcr : N; r_common_hcr : N; r_mdcr : N;   (* common_sysregs *)
  r_set_ripas : set_ripas_req;
  r_g_rd : N;                                              (* realm_info *)
  r_pmu_enabled : bool; r_pmu_num_ctrs : N; r_algorithm : N; r_simd : simd_config; r_ctx : s2ctx;
  r_last_esr : N; r_last_hpfar : N; r_last_far : N;        (* last_run_info *)
  r_psci_pending : bool;
  r_aux : list N;                                          (* g_aux[0..num_rec_aux-1] *)
  r_serror_vsesr : N; r_serror_inject : bool;
  r_host_call : bool
}.
Definition rec_zero : recd :=
  mkRec 0 false (fun _ => 0) 0 0 0 (fun _ => 0) gic_zero 0 0 0 0 req_zero 0 false 0 0
        (mkSimd false 0) ctx_zero 0 0 0 false [] 0 false false.

(** Contents of a granule: 512 words, or one of the two structures the
    monitor keeps in granules it owns. *)
Inductive content := CW (f : N -> N) | CRd (r : rdesc) | CRec (r : recd).

Definition czero : content := CW (fun _ => 0).

(** All 512 words are zero *)
Definition all_zero (f : N -> N) : bool := forallb (fun i => f i =? 0) idx512.

(** A granule descriptor (granule_types.h:206-253: lock, state and reference
    count) with the contents of the granule. *)
Record granule := mkG { g_state : gstate; g_ref : N; g_mem : content }.

(** An entry of the stage 2 TLBs: the leaf descriptor [t_word] at [t_level]
    translating the block of addresses that starts at [t_ipa]. *)
Record tlbe := mkTlbe { t_vmid : N; t_level : Z; t_ipa : N; t_word : N }.

(** [s_locks] tells for which granules the lock bit is set, [s_slots] which slot
    buffers of the executing CPU are in use. *)
Record state := mkS {
  s_locks : N -> bool;
  s_slots : N -> bool;
  s_gr : N -> granule;
  s_vmids : N -> bool;         (* lib/arch/src/vmid.c:21 *)
  s_tlb : list tlbe
}.

Definition set_lock (s : state) (g : N) (b : bool) : state :=
  mkS (upd (s_locks s) g b) (s_slots s) (s_gr s) (s_vmids s) (s_tlb s).
Definition set_slot (s : state) (x : N) (b : bool) : state :=
  mkS (s_locks s) (upd (s_slots s) x b) (s_gr s) (s_vmids s) (s_tlb s).
Definition set_gr (s : state) (a : N) (g : granule) : state :=
  mkS (s_locks s) (s_slots s) (upd (s_gr s) a g) (s_vmids s) (s_tlb s).
Definition set_vmid (s : state) (v : N) (b : bool) : state :=
  mkS (s_locks s) (s_slots s) (s_gr s) (upd (s_vmids s) v b) (s_tlb s).
Definition set_tlb (s : state) (l : list tlbe) : state :=
  mkS (s_locks s) (s_slots s) (s_gr s) (s_vmids s) l.

(** TLBI IPAS2E1IS for every page of [ipa, ipa + size) (s2tt.c:57-113): an
    entry is dropped when it has the VMID and translates one of the addresses. *)
Definition tlb_hit (v ipa size : N) (t : tlbe) : bool :=
  (t_vmid t =? v) && (t_ipa t <? ipa + size) && (ipa <? t_ipa t + s2tte_map_size (t_level t)).
Definition tlb_inval (v ipa size : N) (l : list tlbe) : list tlbe :=
  filter (fun t => negb (tlb_hit v ipa size t)) l.

(* ------------------------------------------------------------------ *)
(** * Programs *)

(** Accesses to shared state, in program order.  [Panic] is a failed
    assertion, a dereference of an invalid pointer or an explicit panic(). *)
Inductive prog (A : Type) : Type :=
| Ret (a : A)
| Panic
| Lock (g : N) (k : prog A)                     (* granule_bitlock_acquire, granule_lock.h:11-31 *)
| Unlock (g : N) (k : prog A)                   (* granule_bitlock_release, granule_lock.h:33-45 *)
| AssertLocked (g : N) (k : prog A)             (* assert(LOCKED(g)), granule.h:29-30 *)
| MapSlot (slot : N) (k : prog A)               (* lib/slot_buf/src/buffer.c:309-335 *)
| UnmapSlot (slot : N) (k : prog A)             (* buffer.c:338-344 *)
| RdState (g : N) (k : gstate -> prog A)
| WrState (g : N) (v : gstate) (k : prog A)
| RdRef (g : N) (k : N -> prog A)
| AddRef (g : N) (d : Z) (k : N -> prog A)      (* atomic load-add, yields the old value *)
| RdMem (g : N) (k : content -> prog A)
| WrMem (g : N) (c : content) (k : prog A)
| RdWord (g i : N) (k : N -> prog A)            (* single-copy-atomic 64-bit access to a table *)
| WrWord (g i w : N) (k : prog A)
| VmidSet (v : N) (k : bool -> prog A)          (* atomic test-and-set, yields the old value *)
| VmidClear (v : N) (k : prog A)
| Tlbi (v ipa size : N) (k : prog A).

Arguments Ret {A}. Arguments Panic {A}. Arguments Lock {A}. Arguments Unlock {A}.
Arguments AssertLocked {A}. Arguments MapSlot {A}. Arguments UnmapSlot {A}.
Arguments RdState {A}. Arguments WrState {A}. Arguments RdRef {A}. Arguments AddRef {A}.
Arguments RdMem {A}. Arguments WrMem {A}. Arguments RdWord {A}. Arguments WrWord {A}.
Arguments VmidSet {A}. Arguments VmidClear {A}. Arguments Tlbi {A}.

Fixpoint bind {A B} (p : prog A) (f : A -> prog B) : prog B :=
  match p with
  | Ret a => f a
  | Panic => Panic
  | Lock g k => Lock g (bind k f)
  | Unlock g k => Unlock g (bind k f)
  | AssertLocked g k => AssertLocked g (bind k f)
  | MapSlot g k => MapSlot g (bind k f)
  | UnmapSlot g k => UnmapSlot g (bind k f)
  | RdState g k => RdState g (fun x => bind (k x) f)
  | WrState g v k => WrState g v (bind k f)
  | RdRef g k => RdRef g (fun x => bind (k x) f)
  | AddRef g d k => AddRef g d (fun x => bind (k x) f)
  | RdMem g k => RdMem g (fun x => bind (k x) f)
  | WrMem g c k => WrMem g c (bind k f)
  | RdWord g i k => RdWord g i (fun x => bind (k x) f)
  | WrWord g i w k => WrWord g i w (bind k f)
  | VmidSet v k => VmidSet v (fun x => bind (k x) f)
  | VmidClear v k => VmidClear v (bind k f)
  | Tlbi v i s k => Tlbi v i s (bind k f)
  end.

Notation "x <- p ;; q" := (bind p (fun x => q)) (at level 61, p at next level, right associativity).
Notation "p ;;; q" := (bind p (fun _ => q)) (at level 61, right associativity).

(** The instructions as programs *)
Definition lock_ g := Lock g (Ret tt).
Definition unlock_ g := Unlock g (Ret tt).
Definition assert_locked g := AssertLocked g (Ret tt).
Definition map_slot s := MapSlot s (Ret tt).
Definition unmap_slot s := UnmapSlot s (Ret tt).
Definition rd_state_ g := RdState g (fun x => Ret x).
Definition wr_state g v := WrState g v (Ret tt).
Definition rd_ref g := RdRef g (fun x => Ret x).
Definition add_ref g d := AddRef g d (fun x => Ret x).
Definition rd_mem g := RdMem g (fun x => Ret x).
Definition wr_mem g c := WrMem g c (Ret tt).
Definition rd_word g i := RdWord g i (fun x => Ret x).
Definition wr_word g i w := WrWord g i w (Ret tt).
Definition vmid_set v := VmidSet v (fun x => Ret x).
Definition vmid_clear v := VmidClear v (Ret tt).
Definition tlbi v ipa size := Tlbi v ipa size (Ret tt).

(** assert() of the C sources *)
Definition assert_ (b : bool) : prog unit := if b then Ret tt else Panic.

Inductive outcome (A : Type) :=
| Done (a : A) (s : state)
| Panicked
| Deadlock.                     (* waits for a lock that is already taken *)
Arguments Done {A}. Arguments Panicked {A}. Arguments Deadlock {A}.

(** Uninterrupted execution. *)
Fixpoint run {A} (p : prog A) (s : state) : outcome A :=
  match p with
  | Ret a => Done a s
  | Panic => Panicked
  | Lock g k => if s_locks s g then Deadlock else run k (set_lock s g true)
  | Unlock g k => if s_locks s g then run k (set_lock s g false) else Panicked
  | AssertLocked g k => if s_locks s g then run k s else Panicked
  | MapSlot x k => if s_slots s x then Panicked else run k (set_slot s x true)
  | UnmapSlot x k => if s_slots s x then run k (set_slot s x false) else Panicked
  | RdState g k => run (k (g_state (s_gr s g))) s
  | WrState g v k =>
      let x := s_gr s g in run k (set_gr s g (mkG v (g_ref x) (g_mem x)))
  | RdRef g k => run (k (g_ref (s_gr s g))) s
  | AddRef g d k =>
      let x := s_gr s g in
      run (k (g_ref x)) (set_gr s g (mkG (g_state x) (Z.to_N (Z.of_N (g_ref x) + d)) (g_mem x)))
  | RdMem g k => run (k (g_mem (s_gr s g))) s
  | WrMem g c k =>
      let x := s_gr s g in run k (set_gr s g (mkG (g_state x) (g_ref x) c))
  | RdWord g i k =>
      match g_mem (s_gr s g) with CW f => run (k (f i)) s | _ => Panicked end
  | WrWord g i w k =>
      let x := s_gr s g in
      match g_mem x with
      | CW f => run k (set_gr s g (mkG (g_state x) (g_ref x) (CW (upd f i w))))
      | _ => Panicked
      end
  | VmidSet v k => run (k (s_vmids s v)) (set_vmid s v true)
  | VmidClear v k => run k (set_vmid s v false)
  | Tlbi v ipa size k => run k (set_tlb s (tlb_inval v ipa size (s_tlb s)))
  end.
