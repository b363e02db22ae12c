(** Vocabulary of the theorems about single steps of the system.  Nothing here
    models code. *)
From Coq Require Import NArith ZArith List Bool.
From Verif Require Import Bits S2tte State Granule Measure RmiRealm Psci RmiRec Esr Rsi RecRun Arch Mmu Machine Spec.
Import ListNotations.
Local Open Scope N_scope.

(** A step from a reachable state *)
Definition next (c : cfg) (h : hw) (m : mstate) (o : op) (m' : mstate) (rp : reply) : Prop :=
  reachable c h m /\ op_ok o /\ step c h m o = RDone m' rp.

(** The command [k] succeeds and returns the registers [r] *)
Definition done (o : op) (rp : reply) (k : cmd) (r : res) : Prop := exists p, o = OCmd p k /\ rp = Reply r /\ x0 r = RMI_SUCCESS.

(** The step is an action of the REC [a]: it takes place on the CPU that
    executes it *)
Definition cpu_of (o : op) : option N :=
  match o with
  | OCmd p _ | OEnter p _ _ _ _ _ | OExit p _ _ _ | ORegs p _ _ _ _ _ | OLoad p _ _ | OStore p _ _ | OFill p _ | OAux p _ _ => Some p
  | OHost _ _ _ => None
  end.
Definition acts (m : mstate) (o : op) (a : N) (r : recd) : Prop :=
  exists p, cpu_of o = Some p /\ executes m p a /\ rec_is m a r.

(** The REC executes the SMC instruction: exception class 23 *)
Definition smc (m : mstate) (o : op) (a : N) (r : recd) : Prop :=
  exists p ev fi tm, o = OExit p ev fi tm /\ executes m p a /\ rec_is m a r /\ ev_exc ev = ExcSync /\ bits (ev_esr ev) 31 26 = 23.
(** The function number of the RSI: the identifiers are 0xC4000190 and following, bit
    16 is a hint.  The PSCI calls named here have 0x84000000 and following. *)
Definition rsi_call (m : mstate) (o : op) (a : N) (r : recd) (n : N) : Prop :=
  smc m o a r /\ N.clearbit (r_regs r 0 mod 2 ^ 32) 16 = 0xC4000190 + n.
Definition psci_call (m : mstate) (o : op) (a : N) (r : recd) (n : N) : Prop :=
  smc m o a r /\ r_regs r 0 mod 2 ^ 32 = 0x84000000 + n.
Definition RSI_EXTEND : N := 3.
Definition RSI_SET : N := 7.
Definition PSCI_OFF : N := 8.
Definition PSCI_RESET : N := 9.

(** ** C05: which granule changes its state when a command succeeds *)

Inductive moves (m : mstate) (o : op) (rp : reply) : N -> gstate -> gstate -> Prop :=
| mv_delegate : forall e a r, done o rp (KGranuleDelegate e a) r -> moves m o rp a NS DELEGATED
| mv_undelegate : forall e a r, done o rp (KGranuleUndelegate e a) r -> moves m o rp a DELEGATED NS
| mv_data_create : forall ok rd data ipa src fl r, done o rp (KDataCreate ok rd data ipa src fl) r -> moves m o rp data DELEGATED DATA
| mv_data_unknown : forall rd data ipa r, done o rp (KDataCreateUnknown rd data ipa) r -> moves m o rp data DELEGATED DATA
| mv_data_destroy : forall rd ipa r, done o rp (KDataDestroy rd ipa) r -> moves m o rp (x1 r) DATA DELEGATED
| mv_rtt_create : forall rd rtt ipa l r, done o rp (KRttCreate rd rtt ipa l) r -> moves m o rp rtt DELEGATED RTT
| mv_rtt_destroy : forall rd ipa l r, done o rp (KRttDestroy rd ipa l) r -> moves m o rp (x1 r) RTT DELEGATED
| mv_rtt_fold : forall rd ipa l r, done o rp (KRttFold rd ipa l) r -> moves m o rp (x1 r) RTT DELEGATED
| mv_realm_create : forall p rd pa r, done o rp (KRealmCreate p rd pa) r -> moves m o rp rd DELEGATED RD
| mv_realm_create_rtt : forall p rd pa r k, done o rp (KRealmCreate (Some p) rd pa) r -> k < p_rtt_num_start p ->
    moves m o rp (p_rtt_base p + k * 4096) DELEGATED RTT
| mv_realm_destroy : forall rd r, done o rp (KRealmDestroy rd) r -> moves m o rp rd RD DELEGATED
| mv_realm_destroy_rtt : forall rd d r k, done o rp (KRealmDestroy rd) r -> realm m rd d -> k < num_root_rtts (rd_ctx d) ->
    moves m o rp (g_rtt (rd_ctx d) + k * 4096) RTT DELEGATED
| mv_rec_create : forall p rd rec pa r, done o rp (KRecCreate p rd rec pa) r -> moves m o rp rec DELEGATED REC
| mv_rec_create_aux : forall p rd rec pa r i, done o rp (KRecCreate (Some p) rd rec pa) r -> i < 16 -> moves m o rp (rp_aux p i) DELEGATED REC_AUX
| mv_rec_destroy : forall rec r, done o rp (KRecDestroy rec) r -> moves m o rp rec REC DELEGATED
| mv_rec_destroy_aux : forall rec rc r a, done o rp (KRecDestroy rec) r -> rec_is m rec rc -> In a (r_aux rc) ->
    moves m o rp a REC_AUX DELEGATED.

(** Nothing that a command can change is different *)
Definition same (m m' : mstate) : Prop :=
  (forall a, m_gr m' a = m_gr m a) /\ (forall v, m_vmids m' v = m_vmids m v) /\ m_tlb m' = m_tlb m /\ m_cpu m' = m_cpu m /\
  (forall a, m_att m' a = m_att m a) /\ (forall a, m_locks m' a = m_locks m a) /\ (forall p z, m_slots m' p z = m_slots m p z).

(** ** C10-C12, C29: pages *)

Definition in_range (base top ipa : N) : bool := (base <=? ipa) && (ipa <? top).
(** The pages of an entry of this level *)
Definition block (map : N) (level : Z) (ipa : N) : bool := in_range map (map + 2 ^ arch_lsb level) ipa.
(** The RIPAS change a REC has asked for *)
Definition request (m : mstate) (a : N) : option set_ripas_req :=
  match g_mem (m_gr m a) with CRec r => Some (r_set_ripas r) | _ => None end.
Definition with_ripas (p : page) (q : ripas) : page :=
  match p with PUnassigned _ => PUnassigned q | PAssigned _ pa => PAssigned q pa | _ => p end.

(** What a command that succeeds makes of the page [p] that the realm [a] has
    at [ipa] *)
Definition page_after (m : mstate) (k : cmd) (r : res) (a : N) (x : s2ctx) (ipa : N) (p : page) : page :=
  match k with
  | KDataCreate _ rd data map _ _ => if (rd =? a) && block map 3 ipa then PAssigned RAM data else p
  | KDataCreateUnknown rd data map =>
    if (rd =? a) && block map 3 ipa then match p with PUnassigned q => PAssigned q data | _ => p end else p
  | KDataDestroy rd map =>
    if (rd =? a) && block map 3 ipa then
      match p with PAssigned EMPTY _ => PUnassigned EMPTY | _ => PUnassigned DESTROYED end else p
  | KRttDestroy rd map ul =>
    if (rd =? a) && block map (sgn64 ul - 1) ipa then
      if ipa <? 2 ^ (ipa_bits x - 1) then PUnassigned DESTROYED else PNsUnassigned else p
  | KRttMapUnprotected rd map ul w =>
    if (rd =? a) && block map (sgn64 ul) ipa then
      PNsAssigned (arch_oa (enable_lpa2 x) (arch_lsb (sgn64 ul)) w + (ipa - map) / 4096 * 4096) (bits w 4 2) (bits w 7 6) else p
  | KRttUnmapUnprotected rd map ul => if (rd =? a) && block map (sgn64 ul) ipa then PNsUnassigned else p
  | KRttInitRipas rd base top => if (rd =? a) && in_range base (x1 r) ipa then with_ripas p RAM else p
  | KRttSetRipas rd rec base top =>
    if (rd =? a) && in_range base (x1 r) ipa then
      match request m rec with
      | Some q => match sr_ripas q with 0 => with_ripas p EMPTY | 1 => with_ripas p RAM | _ => p end
      | None => p
      end
    else p
  | _ => p
  end.
Definition page_then (m : mstate) (o : op) (rp : reply) (a : N) (x : s2ctx) (ipa : N) (p : page) : page :=
  match o, rp with
  | OCmd _ k, Reply r => if x0 r =? RMI_SUCCESS then page_after m k r a x ipa p else p
  | _, _ => p
  end.

(** What the page was like before the command *)
Definition page_before (m : mstate) (k : cmd) (r : res) (a : N) (ipa : N) (p : page) : Prop :=
  match k with
  | KDataCreate _ rd _ map _ _ | KDataCreateUnknown rd _ map => (rd =? a) && block map 3 ipa = true -> exists q, p = PUnassigned q
  | KDataDestroy rd map => (rd =? a) && block map 3 ipa = true -> exists q, p = PAssigned q (x1 r)
  | KRttMapUnprotected rd map ul _ => (rd =? a) && block map (sgn64 ul) ipa = true -> p = PNsUnassigned
  | KRttUnmapUnprotected rd map ul => (rd =? a) && block map (sgn64 ul) ipa = true -> exists pa mt sh, p = PNsAssigned pa mt sh
  | KRttInitRipas rd base top => (rd =? a) && in_range base (x1 r) ipa = true -> p = PUnassigned EMPTY \/ p = PUnassigned RAM
  | KRttSetRipas rd rec base top => (rd =? a) && in_range base (x1 r) ipa = true ->
    exists q, page_ripas p = Some q /\
      (q = DESTROYED -> forall rq, request m rec = Some rq -> sr_change_destroyed rq = 1 \/ 1 < sr_ripas rq)
  | _ => True
  end.

(** A translation without the level it was found at: the output address, the
    address space, whether it cannot be executed from and the attribute fields of
    the descriptor, which are all bits but the type and the output address *)
Definition attr_fields (ds : bool) (w : N) : N :=
  N.land w (2 ^ 64 - 2 ^ 50 + 2 ^ 12 - 2 ^ 10 + 2 ^ 8 - 2 ^ 2 + if ds then 0 else 2 ^ 10 - 2 ^ 8).
Definition outcome (ds : bool) (x : xlat) : option (N * bool * bool * N) :=
  match x with XOk _ w oa ns xn => Some (oa, ns, xn, attr_fields ds w) | _ => None end.

(** The part of a RIPAS change that the realm asked for and that the step makes *)
Definition asked (m : mstate) (o : op) (rp : reply) (a ipa : N) (q : set_ripas_req) : Prop :=
  exists rec rc base top r, done o rp (KRttSetRipas a rec base top) r /\ rec_is m rec rc /\ r_g_rd rc = a /\ q = r_set_ripas rc /\
    base = sr_addr q /\ base <= ipa < x1 r /\ x1 r <= sr_top q.
Definition new_ripas (q : set_ripas_req) : option ripas := match sr_ripas q with 0 => Some EMPTY | 1 => Some RAM | _ => None end.
