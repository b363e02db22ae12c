(** C19 and C52 to C54: the start of an execution context (REC), what its exceptions
    and PSCI calls do, and its interrupts and timers.  The vocabulary is in Spec.v,
    SpecStep.v, SpecRec.v, SpecRsi.v and SpecRun.v. *)
From Coq Require Import NArith ZArith List Bool.
From Verif Require Import Bits S2tte State Granule RecFields Measure RmiRtt RmiRealm Psci RmiRec Gic Esr Rsi RecRun Arch Mmu Machine
  Spec SpecStep SpecExit SpecRec SpecRsi SpecSafe SpecRun Demo Demo2 Demo3 Own Step Step14.
Import ListNotations.
Local Open Scope N_scope.

(* ------------------------------------------------------------------ *)
(** * C53 *)

(** A new REC has the program counter, the eight registers, the state and the identity the
    host chose, and nothing else of the host's choice or of an earlier use of the granule *)
Theorem C53_initial : forall c h m o m' rp p rd a pa x, next c h m o m' rp -> done o rp (KRecCreate (Some p) rd a pa) x ->
  exists d rc, realm m rd d /\ rec_is m' a rc /\ initial c d p rc.
Proof. exact created_init. Qed.

Definition d_new : op := OCmd 1 (KRecCreate (Some (drec 128 80 1 1)) (gr 1) (gr 19) (gr 100)).
(** The hypotheses are met: the second REC of realm 2 *)
Example C53_example : exists m m' rp x rc, next dcfg dhw m d_new m' rp /\ done d_new rp (KRecCreate (Some (drec 128 80 1 1)) (gr 1) (gr 19) (gr 100)) x /\
  rec_is m' (gr 19) rc /\ r_pc rc = 128 /\ r_regs rc 7 = 7 /\ r_regs rc 8 = 0 /\ r_sys rc VMPIDR_EL2 = 2 ^ 31 + 1.
Proof.
  assert (E : staged (d_base ++ map (OCmd 1) (delegates 80 16)) d_new (fun m m' rp => let rc := rec_of m' (gr 19) in
    succ rp && is_rec_b m' (gr 19) && (r_pc rc =? 128) && (r_regs rc 7 =? 7) && (r_regs rc 8 =? 0) && (r_sys rc VMPIDR_EL2 =? 2 ^ 31 + 1)) = true) by (vm_compute; reflexivity).
  apply stage in E. destruct E as (m' & rp & NX & E). revert NX E. generalize (after (d_base ++ map (OCmd 1) (delegates 80 16))) as m. intros m NX E. cbv zeta in E. facts E.
  exists m, m', rp, (res_of rp), (rec_of m' (gr 19)). split; [exact NX|]. split; [apply (succ_done 1); assumption|]. split; [apply rec_b; assumption|]. auto.
Qed.

(* ------------------------------------------------------------------ *)
(** * C19 *)

(** What a PSCI call does, for every function identifier and all arguments *)
Theorem C19_calls : forall c h m o m' rp a r r' d, next c h m o m' rp -> smc m o a r -> psci_id (r_regs r 0 mod 2 ^ 32) -> realm m (r_g_rd r) d -> rec_is m' a r' ->
  psci_effect m m' rp a d r r' (psci_meaning d r).
Proof. exact psci_called. Qed.

Definition d_set (f a1 a2 a3 : N) : op := ORegs 0 (fun i => match i with 0 => f | 1 => a1 | 2 => a2 | 3 => a3 | _ => i end) 0 256 5 (fun _ => 0).
Definition d_take (esr far hpfar : N) (fi : fin) : op := OExit 0 (mkEv ExcSync esr far hpfar no_env) fi no_tm.
Definition psci_example (f a1 a2 a3 : N) (P : psci_does -> recd -> bool) : Prop :=
  exists m m' rp d r r', next dcfg dhw m (d_take (23 * 2 ^ 26) 0 0 dfin) m' rp /\ smc m (d_take (23 * 2 ^ 26) 0 0 dfin) (gr 14) r /\ psci_id (r_regs r 0 mod 2 ^ 32) /\
    realm m (r_g_rd r) d /\ rec_is m' (gr 14) r' /\ P (psci_meaning d r) r' = true.
Definition runs (m m' : mstate) : bool :=
  is_rec_b m' (gr 14) && is_rec_b m (gr 14) && is_rd_b m (gr 0) && match m_cpu m 0 with Some ru => ru_rec ru =? gr 14 | None => false end && (r_g_rd (rec_of m (gr 14)) =? gr 0).
Lemma runs_on : forall m m', runs m m' = true -> rec_is m' (gr 14) (rec_of m' (gr 14)) /\ rec_is m (gr 14) (rec_of m (gr 14)) /\ executes m 0 (gr 14) /\
  realm m (r_g_rd (rec_of m (gr 14))) (rd_of m (gr 0)) /\ exists ru, m_cpu m 0 = Some ru /\ ru_rec ru = gr 14.
Proof.
  intros m m' E. unfold runs in E. facts E. split; [apply rec_b; assumption|]. split; [apply rec_b; assumption|]. split; [apply executes_b; assumption|].
  split; [match goal with H : r_g_rd _ = gr 0 |- _ => rewrite H end; apply realm_b; assumption|].
  destruct (m_cpu m 0) as [ru|]; [|discriminate]. exists ru. match goal with H : (_ =? _) = true |- _ => apply N.eqb_eq in H | _ => idtac end. auto.
Qed.
Lemma psci_shown : forall f a1 a2 a3 P, (0x84000000 <=? N.clearbit (f mod 2 ^ 32) 16) && (N.clearbit (f mod 2 ^ 32) 16 <=? 0x84000014) || (0xC4000000 <=? N.clearbit (f mod 2 ^ 32) 16) && (N.clearbit (f mod 2 ^ 32) 16 <=? 0xC4000014) = true ->
  staged (d_base ++ [d_set f a1 a2 a3]) (d_take (23 * 2 ^ 26) 0 0 dfin) (fun m m' rp => runs m m' && (r_regs (rec_of m (gr 14)) 0 =? f) && P (psci_meaning (rd_of m (gr 0)) (rec_of m (gr 14))) (rec_of m' (gr 14))) = true ->
  psci_example f a1 a2 a3 P.
Proof.
  intros f a1 a2 a3 P F E. apply stage in E. destruct E as (m' & rp & NX & E). revert NX E. generalize (after (d_base ++ [d_set f a1 a2 a3])) as m. intros m NX E. cbv zeta in E. apply andb_prop in E. destruct E as [E E3]. apply andb_prop in E. destruct E as [E1 E2]. apply N.eqb_eq in E2.
  destruct (runs_on _ _ E1) as (R' & R & X & D & _). exists m, m', rp, (rd_of m (gr 0)), (rec_of m (gr 14)), (rec_of m' (gr 14)).
  split; [exact NX|]. split. { eexists _, _, _, _. split; [reflexivity|]. split; [exact X|]. split; [exact R|]. split; reflexivity. }
  split; [|auto]. unfold psci_id. rewrite E2. apply orb_prop in F. destruct F as [F|F]; [left|right]; apply andb_prop in F; destruct F as [F1 F2]; apply N.leb_le in F1, F2; auto.
Qed.
(** The hypotheses are met, with each of the results *)
Example C19_example_calls :
  psci_example 0x84000000 0 0 0 (fun e r' => match e with Answer v => (v =? 0x10001) && (r_regs r' 0 =? 0x10001) | _ => false end) /\
  psci_example 0xC4000001 0 0 0 (fun e r' => match e with Suspend => r_runnable r' | _ => false end) /\
  psci_example 0x84000002 0 0 0 (fun e r' => match e with Off => negb (r_runnable r') | _ => false end) /\
  psci_example 0xC4000003 1 64 5 (fun e r' => match e with Ask => r_psci_pending r' | _ => false end) /\
  psci_example 0xC4000003 9 64 5 (fun e r' => match e with Answer v => (v =? minus 2) && (r_regs r' 0 =? 2 ^ 64 - 2) | _ => false end) /\
  psci_example 0x84000008 0 0 0 (fun e r' => match e with SystemOff => r_regs r' 0 =? 0x84000008 | _ => false end).
Proof. repeat (match goal with |- _ /\ _ => split end); (apply psci_shown; vm_compute; reflexivity). Qed.

(* ------------------------------------------------------------------ *)
(** * C54 *)

(** What every exception but an SMC does to the registers of the realm; nothing but
    its REC changes *)
Theorem C54_exit : forall c h m p ev fi tm m' rp ru r r', next c h m (OExit p ev fi tm) m' rp -> m_cpu m p = Some ru -> rec_is m (ru_rec ru) r -> rec_is m' (ru_rec ru) r' ->
  ~ (ev_exc ev = ExcSync /\ class ev = 23) -> takes h m r (ru_simd ru) ev rp r' /\ only m m' [ru_rec ru].
Proof. exact exit_takes. Qed.

Definition take_example (esr far hpfar : N) (P : reply -> recd -> recd -> bool) : Prop :=
  exists m m' rp ru r r', next dcfg dhw m (d_take esr far hpfar dfin) m' rp /\ m_cpu m 0 = Some ru /\ rec_is m (ru_rec ru) r /\ rec_is m' (ru_rec ru) r' /\ P rp r r' = true.
Lemma take_shown : forall esr far hpfar P,
  staged (d_base ++ [d_set 0 1 2 3]) (d_take esr far hpfar dfin) (fun m m' rp => runs m m' && P rp (rec_of m (gr 14)) (rec_of m' (gr 14))) = true -> take_example esr far hpfar P.
Proof.
  intros esr far hpfar P E. apply stage in E. destruct E as (m' & rp & NX & E). revert NX E. generalize (after (d_base ++ [d_set 0 1 2 3])) as m. intros m NX E. apply andb_prop in E. destruct E as [E1 E2].
  destruct (runs_on _ _ E1) as (R' & R & X & D & ru & U1 & U2). exists m, m', rp, ru, (rec_of m (gr 14)), (rec_of m' (gr 14)). rewrite U2. auto.
Qed.
(** The hypotheses are met: WFI; HVC; a read of an ID register and of another register into x5; a data abort in
    the unprotected half, on a page that is not mapped (to the host) and outside of the address space (to the realm); SVE, which realm 1 does not have *)
Example C54_example :
  take_example (1 * 2 ^ 26) 0 0 (fun rp r r' => exited rp && (r_pc r' =? r_pc r + 4)) /\
  take_example (22 * 2 ^ 26) 0 0 (fun rp r r' => entered rp && (r_sys r' ELR_EL1 =? r_pc r) && (r_sys r' ESR_EL1 =? 2 ^ 25)) /\
  take_example (24 * 2 ^ 26 + 2 ^ 25 + (3 * 2 ^ 20 + 0 * 2 ^ 17 + 5 * 2 ^ 1 + 5 * 2 ^ 5 + 1)) 0 0 (fun rp r r' => entered rp && (r_regs r' 5 =? 0) && (r_pc r' =? r_pc r + 4)) /\
  take_example (36 * 2 ^ 26 + 7) 0 ((2 ^ 32 + 2 ^ 31) / 256) (fun rp r r' => exited rp && (r_pc r' =? r_pc r)) /\
  take_example (36 * 2 ^ 26 + 7) 77 (2 ^ 40 / 256) (fun rp r r' => entered rp && (r_sys r' FAR_EL1 =? 77) && (r_sys r' ELR_EL1 =? r_pc r)) /\
  take_example (25 * 2 ^ 26) 0 0 (fun rp r r' => entered rp && (r_sys r' ESR_EL1 =? 2 ^ 25)).
Proof. repeat (match goal with |- _ /\ _ => split end); (apply take_shown; vm_compute; reflexivity). Qed.

(* ------------------------------------------------------------------ *)
(** * C52 *)

(** At an exception: the realm goes on only with timers the host knows of, and keeps its interrupt
    state; when it leaves, the state of the processor is kept and the host is told *)
Theorem C52_exit : forall c h m p ev fi tm m' rp ru r r', next c h m (OExit p ev fi tm) m' rp -> m_cpu m p = Some ru -> rec_is m (ru_rec ru) r -> rec_is m' (ru_rec ru) r' ->
  (rp = Entered -> r_gic r' = r_gic r /\ timers_known tm r r') /\
  (forall ret x, rp = Exited ret x -> interrupts_kept h fi (r_gic r) r' /\ match x with Some x => interrupts_told h fi r' x | None => True end).
Proof. exact exit_times. Qed.

(** At an entry: the list registers and the bits that belong to the host are those it gives *)
Theorem C52_entry : forall c h m p a ra e fi tm m' rp r r', next c h m (OEnter p a ra (Some e) fi tm) m' rp -> rec_is m a r -> rec_is m' a r' ->
  (rp = Entered -> interrupts_given h e (r_gic r) (r_gic r') /\ timers_known tm r r') /\
  (forall x, rp = Exited RMI_SUCCESS (Some x) -> ex_reason x = RMI_EXIT_IRQ -> exists g, interrupts_given h e (r_gic r) g /\ interrupts_kept h fi g r' /\ interrupts_told h fi r' x).
Proof. exact enter_times. Qed.

Definition d_live : gic_state := mkGic (fun _ => 5) (fun _ => 6) 7 (2 ^ 27 + 2) (fun i => 2 ^ 62 + i) 9.
Definition d_left : fin := mkFin (mkTm 5 1000 1 2000) d_live 0 true.
Definition d_irq : op := OExit 0 (mkEv ExcIrq 0 0 0 no_env) d_left no_tm.
Definition d_back (tm : timers) : op := OEnter 0 (gr 14) (gr 102) (Some (mkEnter 0 (fun _ => 0) 2 (fun i => if i =? 0 then 2 ^ 62 + 77 else 0))) d_left tm.
(** The hypotheses are met: an interrupt; the REC is entered again with the timers as
    the host knows them, and with a timer that has fired since *)
Example C52_example :
  (exists m m' rp ru r r', next dcfg dhw m d_irq m' rp /\ m_cpu m 0 = Some ru /\ rec_is m (ru_rec ru) r /\ rec_is m' (ru_rec ru) r' /\
     rp = Exited 0 (Some (exit_of rp)) /\ gic_lr (r_gic r') 1 = 2 ^ 62 + 1 /\ r_sys r' CNTV_CVAL_EL0 = 1000 /\ ex_gicv3_lrs (exit_of rp) 1 = 2 ^ 62 + 1 /\ ex_cntv_cval (exit_of rp) = 1000) /\
  (exists m m' r r', next dcfg dhw m (d_back (mkTm 5 1000 1 2000)) m' Entered /\ rec_is m (gr 14) r /\ rec_is m' (gr 14) r' /\ gic_lr (r_gic r') 0 = 2 ^ 62 + 77 /\
     N.testbit (r_sys r' CNTHCTL_EL2) 18 = true) /\
  (exists m m' rp r r', next dcfg dhw m (d_back (mkTm 5 1000 5 2000)) m' rp /\ rec_is m (gr 14) r /\ rec_is m' (gr 14) r' /\ rp = Exited RMI_SUCCESS (Some (exit_of rp)) /\
     ex_reason (exit_of rp) = RMI_EXIT_IRQ).
Proof.
  split; [|split].
  - assert (E : staged d_base d_irq (fun m m' rp => let r' := rec_of m' (gr 14) in runs m m' && (exited rp && (gic_lr (r_gic r') 1 =? 2 ^ 62 + 1) && (r_sys r' CNTV_CVAL_EL0 =? 1000) &&
      (ex_gicv3_lrs (exit_of rp) 1 =? 2 ^ 62 + 1) && (ex_cntv_cval (exit_of rp) =? 1000))) = true) by (vm_compute; reflexivity).
    apply stage in E. destruct E as (m' & rp & NX & E). revert NX E. generalize (after d_base) as m. intros m NX E. cbv zeta in E. apply andb_prop in E. destruct E as [E1 E2]. facts E2.
    destruct (runs_on _ _ E1) as (R' & R & X & D & ru & U1 & U2). exists m, m', rp, ru, (rec_of m (gr 14)), (rec_of m' (gr 14)). rewrite U2.
    do 4 (split; [assumption|]). split; [apply exited_reply; assumption|]. auto.
  - assert (E : staged (d_base ++ [d_irq]) (d_back (mkTm 5 1000 1 2000)) (fun m m' rp => let r' := rec_of m' (gr 14) in is_rec_b m (gr 14) && is_rec_b m' (gr 14) &&
      (entered rp && (gic_lr (r_gic r') 0 =? 2 ^ 62 + 77) && N.testbit (r_sys r' CNTHCTL_EL2) 18)) = true) by (vm_compute; reflexivity).
    apply stage in E. destruct E as (m' & rp & NX & E). revert NX E. generalize (after (d_base ++ [d_irq])) as m. intros m NX E. cbv zeta in E. facts E.
    match goal with H : entered rp = true |- _ => apply entered_reply in H; subst rp end.
    exists m, m', (rec_of m (gr 14)), (rec_of m' (gr 14)). split; [exact NX|]. split; [apply rec_b; assumption|]. split; [apply rec_b; assumption|]. auto.
  - assert (E : staged (d_base ++ [d_irq]) (d_back (mkTm 5 1000 5 2000)) (fun m m' rp => is_rec_b m (gr 14) && is_rec_b m' (gr 14) && (exited rp && (ex_reason (exit_of rp) =? RMI_EXIT_IRQ))) = true) by (vm_compute; reflexivity).
    apply stage in E. destruct E as (m' & rp & NX & E). revert NX E. generalize (after (d_base ++ [d_irq])) as m. intros m NX E. facts E.
    exists m, m', rp, (rec_of m (gr 14)), (rec_of m' (gr 14)). split; [exact NX|]. split; [apply rec_b; assumption|]. split; [apply rec_b; assumption|]. split; [apply exited_reply; assumption|assumption].
Qed.

Definition run_theorems := (@C53_initial, @C19_calls, @C54_exit, @C52_exit, @C52_entry).
Print Assumptions run_theorems.
