(** What the host may know about a machine: two machines agree when they differ
    only in what belongs to realms, independent of the code of the commands. *)
From Coq Require Import NArith ZArith List Bool.
From Verif Require Import Bits S2tte State RecRun Arch Machine Spec.
Import ListNotations.
Local Open Scope N_scope.

(** Everything the monitor keeps about a realm except its measurements *)
Definition rd_public (d : rdesc) :=
  (rd_state d, rd_rec_count d, rd_ctx d, rd_num_rec_aux d, rd_algorithm d, rd_pmu_enabled d, rd_pmu_num_ctrs d, rd_simd d, rd_rpv d).

(** What the host gave a REC when it was created and what the last exit told
    about it.  Not here: general registers, program counter, PSTATE, system
    registers, the state of the interrupt controller, pending SErrors and the
    syndrome registers of the last exception. *)
Definition rec_public (r : recd) :=
  (r_idx r, r_runnable r, (r_vttbr r, r_vtcr r, r_common_hcr r, r_mdcr r), r_set_ripas r, r_g_rd r,
   (r_pmu_enabled r, r_pmu_num_ctrs r, r_algorithm r, r_simd r, r_ctx r), r_psci_pending r, r_aux r, r_host_call r).

(** While a PSCI call waits for the host, the host has been given X0 and X1. *)
Definition rec_agree (r r' : recd) : Prop :=
  rec_public r = rec_public r' /\ (r_psci_pending r = true -> r_regs r 0 = r_regs r' 0 /\ r_regs r 1 = r_regs r' 1).

Definition content_agree (x x' : content) : Prop :=
  match x, x' with
  | CW f, CW f' => forall i, f i = f' i
  | CRd d, CRd d' => rd_public d = rd_public d'
  | CRec r, CRec r' => rec_agree r r'
  | _, _ => False
  end.

(** The pages of a realm and the auxiliary granules of RECs are secret. *)
Definition granule_agree (g g' : granule) : Prop :=
  g_state g = g_state g' /\ g_ref g = g_ref g' /\
  (g_state g = DATA \/ g_state g = REC_AUX \/ content_agree (g_mem g) (g_mem g')).

(** The attestation data of RECs and what the TLBs hold are secret. *)
Definition agree (m m' : mstate) : Prop :=
  (forall g, m_locks m g = m_locks m' g) /\ (forall p x, m_slots m p x = m_slots m' p x) /\
  (forall v, m_vmids m v = m_vmids m' v) /\
  (forall p, option_map ru_rec (m_cpu m p) = option_map ru_rec (m_cpu m' p)) /\
  (forall g, granule_agree (m_gr m g) (m_gr m' g)).

(** The same answer in two machines that agree *)
Definition same_answer (x x' : result) : Prop :=
  match x, x' with
  | RDone m r, RDone m' r' => r = r' /\ agree m m'
  | RPanic, RPanic | RDeadlock, RDeadlock | RSmash, RSmash | RNot, RNot => True
  | _, _ => False
  end.

(** The host gives a command (other than RMI_REC_ENTER) or writes its memory. *)
Definition host_op (o : op) : bool := match o with OCmd _ _ | OHost _ _ _ => true | _ => false end.
(** A realm executes, without an exit to the monitor. *)
Definition realm_op (o : op) : bool :=
  match o with ORegs _ _ _ _ _ _ | OLoad _ _ _ | OStore _ _ _ | OFill _ _ | OAux _ _ _ => true | _ => false end.
(** The memory of the host is the same in both machines. *)
Definition host_memory_same (m m' : mstate) : Prop := forall a, g_state (m_gr m a) = NS -> g_mem (m_gr m' a) = g_mem (m_gr m a).

(** A history of commands and writes of the host, among which realms execute
    without writing the host's memory; what the host does and the replies it
    gets are recorded, what the realms do is not. *)
Inductive host_sees (c : cfg) (h : hw) : mstate -> list (op * reply) -> mstate -> Prop :=
| hs_nil : forall m, host_sees c h m [] m
| hs_host : forall m o r m1 l m2, host_op o = true -> op_ok o -> step c h m o = RDone m1 r -> host_sees c h m1 l m2 ->
    host_sees c h m ((o, r) :: l) m2
| hs_realm : forall m o r m1 l m2, realm_op o = true -> step c h m o = RDone m1 r -> host_memory_same m m1 -> host_sees c h m1 l m2 ->
    host_sees c h m l m2.
