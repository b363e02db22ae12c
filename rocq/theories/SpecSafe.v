(** Vocabulary for C25, C26 and C50: when the monitor stops, in terms of the
    arguments of a command, the state, and what the processor reports. *)
From Coq Require Import NArith ZArith List Bool.
From Verif Require Import Bits S2tte State Granule Measure RmiRealm Psci RmiRec Gic Esr Rsi RecRun Arch Mmu Machine SpecExit Spec SpecStep Act.
Import ListNotations.
Local Open Scope N_scope.

(** ** Outcomes *)

(** The monitor stops: an assertion fails or memory is accessed that is not there.  It is
    stuck when a CPU waits for a lock that it holds, or when a store of a realm reached a
    structure of the monitor. *)
Definition stopped (r : result) : Prop := r = RPanic.
Definition stuck (r : result) : Prop := r = RDeadlock \/ r = RSmash.

(** On its way the command releases a granule whose lock is not held, or comes to an
    assertion that it is held ([granule_unlock] begins with one, granule.h:193-197) *)
Definition releases_free {A} (p : prog A) (s : state) : Prop :=
  exists n g k s', s_locks s' g = false /\ (acts_n n p s = Some (Unlock g k, s') \/ acts_n n p s = Some (AssertLocked g k, s')).

(** ** Commands that stop the monitor (findings F1, F2, F5) *)

(** The auxiliary granules [0..n-1] are different and delegated, granule [n] is
    not usable or is one of them *)
Definition usable (c : cfg) (m : mstate) (a : N) : Prop := find_granule c a = true /\ g_state (m_gr m a) = DELEGATED.
Definition aux_fails (c : cfg) (m : mstate) (aux : N -> N) (n : N) : Prop :=
  (forall i, i < n -> usable c m (aux i)) /\ (forall i j, i < j -> j < n -> aux i <> aux j) /\
  (~ usable c m (aux n) \/ exists i, i < n /\ aux i = aux n).

Inductive stops (c : cfg) (m : mstate) : cmd -> Prop :=
(** EL3 does not give the granule back *)
| sp_el3 : forall a, stops c m (KGranuleUndelegate false a)
(** an auxiliary granule after the first cannot be used *)
| sp_aux : forall p rd rec pa n, 0 < n < rp_num_aux p mod 2 ^ 32 -> rp_num_aux p mod 2 ^ 32 <= 16 -> aux_fails c m (rp_aux p) n ->
    stops c m (KRecCreate (Some p) rd rec pa)
(** an unprotected mapping above the first level of the tables *)
| sp_map : forall rd d ipa ul w, realm m rd d -> (1 <= sgn64 ul < s2_sl (rd_ctx d))%Z -> stops c m (KRttMapUnprotected rd ipa ul w)
| sp_unmap : forall rd d ipa ul, realm m rd d -> (1 <= sgn64 ul < s2_sl (rd_ctx d))%Z -> stops c m (KRttUnmapUnprotected rd ipa ul)
(** a PSCI call that the realm made with bits set above the function identifier *)
| sp_psci : forall ca ta st r t, rec_is m ca r -> rec_is m ta t -> r_psci_pending r = true -> r_g_rd t = r_g_rd r ->
    ~ In (r_regs r 0) [0x84000003; 0xC4000003; 0x84000004; 0xC4000004] -> stops c m (KPsciComplete ca ta st).

(** ** Entries and exits that stop the monitor *)

(** Five levels of tables: the first is level -1 (finding F6) *)
Definition five_levels (r : recd) : Prop := (s2_sl (r_ctx r) < 0)%Z.

(** The syndrome of a system register access: Op0 [21:20], Op2 [19:17], Op1 [16:14],
    CRn [13:10], CRm [4:1], and bit 0 for reads *)
Definition accesses (esr op0 op1 crn crm op2 : N) : Prop :=
  bits esr 21 20 = op0 /\ bits esr 16 14 = op1 /\ bits esr 13 10 = crn /\ bits esr 4 1 = crm /\ bits esr 19 17 = op2.
Definition writes (esr : N) : Prop := N.testbit esr 0 = false.

(** An exit that the processor can report: it comes from EL0 or EL1; trapped
    system register accesses are 32-bit instructions; ID registers are not written;
    an external abort is reported so that the instruction can be restarted;
    an SError is contained; SIMD registers trap only when they are not the realm's *)
Definition exit_expected (ev : event) (r : recd) (simd : bool) : Prop :=
  let esr := ev_esr ev in let ec := bits esr 31 26 in
  realm_mode (r_pstate r) /\
  match ev_exc ev with
  | ExcSync =>
    (ec = 24 -> N.testbit esr 25 = true) /\
    (ec = 24 -> bits esr 21 20 = 3 -> bits esr 16 14 = 0 -> bits esr 13 10 = 0 -> ~ writes esr) /\
    (ec = 32 \/ ec = 36 -> bits esr 5 0 = 16 \/ 19 <= bits esr 5 0 <= 23 -> bits esr 12 11 = 0 \/ bits esr 12 11 = 3) /\
    (simd = true -> ec <> 7 /\ (ec = 25 -> sve_en (r_simd r) = false))
  | ExcSerror => N.testbit esr 24 = false /\ bits esr 5 0 = 1 /\ In (bits esr 12 10) [1; 2; 3; 6]
  | _ => True
  end.

(** What the realm can do to stop the monitor: an SMC with five levels of tables, and
    an access to a register of the interrupt controller that is not a write to
    ICC_DIR_EL1, ICC_SGI1R_EL1 or ICC_SGI0R_EL1.  Those registers are ICC_PMR_EL1 and
    the ones with Op0 3, Op1 0 (or 4), CRn 12 and CRm from 8. *)
Definition icc (esr : N) : Prop :=
  accesses esr 3 0 4 6 0 \/ (bits esr 21 20 = 3 /\ bits esr 15 14 = 0 /\ bits esr 13 10 = 12 /\ 8 <= bits esr 4 1).
Definition icc_emulated (esr : N) : Prop :=
  writes esr /\ (accesses esr 3 0 12 11 1 \/ accesses esr 3 0 12 11 5 \/ accesses esr 3 0 12 11 7).
Definition realm_stops (ev : event) (r : recd) : Prop :=
  ev_exc ev = ExcSync /\
  ((bits (ev_esr ev) 31 26 = 23 /\ five_levels r) \/ (bits (ev_esr ev) 31 26 = 24 /\ icc (ev_esr ev) /\ ~ icc_emulated (ev_esr ev))).

(** ** What has to hold for the monitor to go on *)
Definition harmless (c : cfg) (m : mstate) (o : op) : Prop :=
  match o with
  | OCmd _ k => ~ stops c m k
  | OEnter _ a _ _ _ _ => forall r, rec_is m a r -> r_host_call r = true -> ~ five_levels r
  | OExit p ev _ _ => forall ru r, m_cpu m p = Some ru -> rec_is m (ru_rec ru) r -> exit_expected ev r (ru_simd ru) /\ ~ realm_stops ev r
  | _ => True
  end.
