(** What the host may know about a machine in which RECs are entered and left,
    independent of the code of RMI_REC_ENTER and of the exits. *)
From Coq Require Import NArith ZArith List Bool.
From Verif Require Import Bits S2tte State RecFields Gic Esr RecRun Arch Machine Spec SpecAgree.
Import ListNotations.
Local Open Scope N_scope.

(** The REC executes on no CPU. *)
Definition rests (m : mstate) (a : N) : Prop := forall p, option_map ru_rec (m_cpu m p) <> Some a.

(** What the last exit of a REC made known to the host beside [rec_public]: the
    class of the exception and whether its syndrome is valid, the address of the
    fault, the controls of the virtual interrupt controller, the outputs of the
    timers and the offsets of the counters, and the address of the host call the
    REC waits for. *)
Definition rec_told (r : recd) :=
  (esr_ec (r_last_esr r), has (r_last_esr r) ISV_BIT, r_last_hpfar r, gic_hcr (r_gic r),
   (timer_asserted (r_sys r CNTV_CTL_EL0), timer_asserted (r_sys r CNTP_CTL_EL0)),
   (r_sys r CNTVOFF_EL2, r_sys r CNTPOFF_EL2), if r_host_call r then r_regs r 1 else 0).

(** Two machines that differ in secrets only: registers and attestation data of
    RECs, memory and measurements of realms, and of a REC that executes also what
    it has not yet told. *)
Definition agree_rest (m m' : mstate) : Prop :=
  agree m m' /\ forall a r r', rec_is m a r -> rec_is m' a r' -> rests m a -> rec_told r = rec_told r'.

(** The same exit record *)
Definition exit_same (x x' : rec_exit) : Prop :=
  (ex_reason x, ex_esr x, ex_far x, ex_hpfar x) = (ex_reason x', ex_esr x', ex_far x', ex_hpfar x') /\
  (forall i, ex_gprs x i = ex_gprs x' i) /\
  (ex_gicv3_hcr x, ex_gicv3_misr x, ex_gicv3_vmcr x) = (ex_gicv3_hcr x', ex_gicv3_misr x', ex_gicv3_vmcr x') /\
  (forall i, ex_gicv3_lrs x i = ex_gicv3_lrs x' i) /\
  (ex_cntp_ctl x, ex_cntp_cval x, ex_cntv_ctl x, ex_cntv_cval x) = (ex_cntp_ctl x', ex_cntp_cval x', ex_cntv_ctl x', ex_cntv_cval x') /\
  (ex_ripas_base x, ex_ripas_top x, ex_ripas_value x, ex_imm x, ex_pmu_ovf x) =
  (ex_ripas_base x', ex_ripas_top x', ex_ripas_value x', ex_imm x', ex_pmu_ovf x').
Definition reply_same (p p' : reply) : Prop :=
  match p, p' with
  | Exited r (Some x), Exited r' (Some x') => r = r' /\ exit_same x x'
  | _, _ => p = p'
  end.

(** The host gives a command, RMI_REC_ENTER included, or writes its memory. *)
Definition host_act (o : op) : bool := match o with OCmd _ _ | OHost _ _ _ | OEnter _ _ _ _ _ _ => true | _ => false end.
(** A realm executes and the monitor returns to it or is not involved. *)
Definition realm_act (o : op) (r : reply) : bool :=
  match o with OExit _ _ _ _ => match r with Entered => true | _ => false end | _ => realm_op o end.

(** What is recorded of a history: what the host does, with the reply, and that
    a REC returned to the host, with the REC and its realm descriptor *)
Inductive seen := Asked (o : op) (r : reply) | Left (p a : N) (r : recd) (d : rdesc).

Inductive history (c : cfg) (h : hw) : mstate -> list seen -> mstate -> Prop :=
| hy_nil : forall m, history c h m [] m
| hy_asked : forall m o r m1 l m2, host_act o = true -> op_ok o -> step c h m o = RDone m1 r -> history c h m1 l m2 ->
    history c h m (Asked o r :: l) m2
| hy_realm : forall m o r m1 l m2, realm_act o r = true -> op_ok o -> step c h m o = RDone m1 r -> host_memory_same m m1 ->
    history c h m1 l m2 -> history c h m l m2
| hy_left : forall m p ev fi tm ru ret x m1 r d l m2, op_ok (OExit p ev fi tm) -> step c h m (OExit p ev fi tm) = RDone m1 (Exited ret x) ->
    m_cpu m p = Some ru -> rec_is m1 (ru_rec ru) r -> realm m1 (r_g_rd r) d -> history c h m1 l m2 ->
    history c h m (Left p (ru_rec ru) r d :: l) m2.

(** What a REC that returns to the host makes known: of its general registers,
    X0 and X1 when it waits for a PSCI call *)
Definition rec_shown (r : recd) :=
  (rec_public r, rec_told r, if r_psci_pending r then (r_regs r 0, r_regs r 1) else (0, 0)).
(** The host does the same, and the realms make the same known. *)
Definition same_event (e e' : seen) : Prop :=
  match e, e' with
  | Asked o _, Asked o' _ => o = o'
  | Left p a r d, Left p' a' r' d' => p = p' /\ a = a' /\ rec_shown r = rec_shown r' /\ rd_state d = rd_state d'
  | _, _ => False
  end.
Definition same_reply (e e' : seen) : Prop :=
  match e, e' with Asked _ r, Asked _ r' => reply_same r r' | _, _ => True end.

(** The same answer in two machines that differ in secrets only *)
Definition same_outcome (x x' : result) : Prop :=
  match x, x' with
  | RDone m r, RDone m' r' => reply_same r r' /\ agree_rest m m'
  | RPanic, RPanic | RDeadlock, RDeadlock | RSmash, RSmash | RNot, RNot => True
  | _, _ => False
  end.

(** Granules that belong to a realm or to the monitor on behalf of a realm *)
Definition realm_owned (s : gstate) : bool := match s with DATA | REC_AUX | RD | REC => true | _ => false end.
