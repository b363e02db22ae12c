(** C25, C26 and C50: what can stop the monitor, locks that are released, slots. *)
From Coq Require Import NArith ZArith List Bool Lia.
From Verif Require Import Bits S2tte State Granule RecFields Measure RmiRtt RmiRealm Psci RmiRec Gic Esr Rsi RecRun Arch Mmu Machine Spec SpecStep SpecExit
  Act SpecSafe Demo Demo2 Step Safe.
Import ListNotations.
Local Open Scope N_scope.

(* ------------------------------------------------------------------ *)
(** * C26 *)

(** The claim is false: these steps from reachable states stop the monitor. *)
(** REC_CREATE whose second auxiliary granule is not delegated *)
Definition d_bad_aux : op := OCmd 1 (KRecCreate (Some (mkRecParams 1 1 0 (fun i => i) 16 (fun i => gr (if i =? 1 then 200 else 70)))) (gr 1) (gr 71) (gr 100)).
Theorem C26_rec_create_refuted : exists c h m o, reachable c h m /\ op_ok o /\ (exists p q rd rec pa, o = OCmd p (KRecCreate q rd rec pa)) /\ stopped (step c h m o).
Proof.
  exists dcfg, dhw, d_state, d_bad_aux. split; [exact d_state_reachable|]. split; [exact I|]. split; [unfold d_bad_aux; eauto 10|]. vm_compute. reflexivity.
Qed.

(** RTT_MAP_UNPROTECTED above the first level of the tables of the realm *)
Definition d_sl2 : list op := d_base ++ map (OCmd 1) (delegates 296 16 ++
  [KRealmCreate (Some (mkRparams 0 33 0 1 1 0 0 79 3 (gr 304) 2 8)) (gr 300) (gr 100)]).
Theorem C26_map_refuted : exists c h m o, reachable c h m /\ op_ok o /\ (exists p rd ipa l w, o = OCmd p (KRttMapUnprotected rd ipa l w)) /\ stopped (step c h m o).
Proof.
  exists dcfg, dhw, (after d_sl2), (OCmd 1 (KRttMapUnprotected (gr 300) (2 ^ 32) 1 (2 ^ 30 + 4 + 192))).
  split; [apply good_reach; vm_compute; reflexivity|]. split; [exact I|]. split; [eauto 10|]. vm_compute. reflexivity.
Qed.

(** PSCI_COMPLETE for a call that the realm made with bit 32 of x0 set *)
Definition d_psci32 : list op := d_base ++ d_smc (2 ^ 32 + 0xC4000003) 1 64 5.
Theorem C26_psci_refuted : exists c h m o, reachable c h m /\ op_ok o /\ (exists p ca ta st, o = OCmd p (KPsciComplete ca ta st)) /\ stopped (step c h m o).
Proof.
  exists dcfg, dhw, (after d_psci32), (OCmd 1 (KPsciComplete (gr 14) (gr 15) 0)).
  split; [apply good_reach; vm_compute; reflexivity|]. split; [exact I|]. split; [eauto 10|]. vm_compute. reflexivity.
Qed.

(** A realm that writes ICC_ASGI1R_EL1 (3, 0, 12, 11, 6) *)
Definition icc_asgi1r : N := 24 * 2 ^ 26 + 2 ^ 25 + 3 * 2 ^ 20 + 6 * 2 ^ 17 + 12 * 2 ^ 10 + 11 * 2.
Theorem C26_icc_refuted : exists c h m p ev fi tm, reachable c h m /\ op_ok (OExit p ev fi tm) /\ stopped (step c h m (OExit p ev fi tm)) /\
  ev_exc ev = ExcSync /\ bits (ev_esr ev) 31 26 = 24 /\ writes (ev_esr ev) /\ accesses (ev_esr ev) 3 0 12 11 6 /\
  forall ru r, m_cpu m p = Some ru -> rec_is m (ru_rec ru) r -> exit_expected ev r (ru_simd ru).
Proof.
  exists dcfg, dhw, (after (d_base ++ [ORegs 0 (fun i => i) 0 256 5 (fun _ => 0)])), 0, (mkEv ExcSync icc_asgi1r 0 0 no_env), dfin, no_tm.
  split; [apply good_reach; vm_compute; reflexivity|]. split; [split; [intros len by_ E; discriminate E|intro E; discriminate E]|].
  split; [vm_compute; reflexivity|]. split; [reflexivity|]. split; [vm_compute; reflexivity|]. split; [vm_compute; reflexivity|].
  split; [vm_compute; auto|]. intros ru r E R. split.
  - set (m := after _) in *. assert (E1 : option_map ru_rec (m_cpu m 0) = Some (gr 14)) by (vm_compute; reflexivity). rewrite E in E1. cbn [option_map] in E1. injection E1 as E1.
    destruct R as [_ R]. rewrite E1 in R. assert (K : match g_mem (m_gr m (gr 14)) with CRec q => r_pstate q =? 5 | _ => false end = true) by (vm_compute; reflexivity).
    rewrite R in K. apply N.eqb_eq in K. rewrite K. vm_compute. auto.
  - assert (C1 : bits icc_asgi1r 31 26 = 24) by (vm_compute; reflexivity). cbn [ev_exc ev_esr]. rewrite C1.
    split; [intros _; vm_compute; reflexivity|]. split; [intros _ _ _ F; vm_compute in F; discriminate F|].
    split; [intros [F|F]; discriminate F|]. intros _. split; [discriminate|]. intro F. discriminate F.
Qed.

(** A realm with five levels of tables that makes a host call with memory that is not mapped *)
Definition dcfg52 : cfg := mkCfg (c_gran dcfg) 52 true (52 + 2 ^ 8 + 5 * 2 ^ 14 + 5 * 2 ^ 20) false 0 (c_hash dcfg).
Definition d_lm1 : list op := map (OCmd 0) (delegates 0 60 ++
  [KRealmCreate (Some (mkRparams 1 52 0 1 1 0 0 77 1 (gr 2) (-1) 1)) (gr 0) (gr 100);
   KRttInitRipas (gr 0) 0 (2 ^ 48);
   KRecCreate (Some (drec 0 20 1 0)) (gr 0) (gr 14) (gr 100); KRealmActivate (gr 0)]) ++
  [OEnter 0 (gr 14) (gr 102) (Some denter) dfin no_tm;
   ORegs 0 (fun i => match i with 0 => 0xC4000199 | 1 => 0 | _ => i end) 0 0 5 (fun _ => 0)].
Theorem C26_levels_refuted : exists c h m p ev fi tm, reachable c h m /\ op_ok (OExit p ev fi tm) /\ stopped (step c h m (OExit p ev fi tm)) /\
  (exists a r, rsi_call m (OExit p ev fi tm) a r 9 /\ r_regs r 1 = 0 /\ realm_mode (r_pstate r)).
Proof.
  assert (X : match exec dcfg52 dhw (init (fun a i => a + i)) d_lm1 with Some (_, m) =>
     stopped (step dcfg52 dhw m (OExit 0 (mkEv ExcSync (23 * 2 ^ 26) 0 0 no_env) dfin no_tm)) /\
     match m_cpu m 0 with Some ru => ru_rec ru =? gr 14 | None => false end = true /\ is_rec_b m (gr 14) = true /\
     N.clearbit (r_regs (rec_of m (gr 14)) 0 mod 2 ^ 32) 16 = 0xC4000190 + 9 /\ r_regs (rec_of m (gr 14)) 1 = 0 /\
     realm_mode (r_pstate (rec_of m (gr 14))) | None => False end).
  { vm_compute. auto 10. }
  destruct (exec dcfg52 dhw (init (fun a i => a + i)) d_lm1) as [[k m]|] eqn:E; [|contradiction].
  destruct X as (X1 & X2 & X3 & X4 & X5 & X6). destruct (exec_steps _ _ _ _ _ _ E) as [ST MF].
  exists dcfg52, dhw, m, 0, (mkEv ExcSync (23 * 2 ^ 26) 0 0 no_env), dfin, no_tm.
  split; [split; [exact dcfg_ok|]; exists (fun a i => a + i), k; split; [exact ST|rewrite MF; apply op_ok_dec; vm_compute; reflexivity]|].
  split; [split; [intros len by_ F; discriminate F|intro F; discriminate F]|]. split; [exact X1|].
  exists (gr 14), (rec_of m (gr 14)). split; [|auto]. split; [|exact X4].
  exists 0, (mkEv ExcSync (23 * 2 ^ 26) 0 0 no_env), dfin, no_tm. split; [reflexivity|]. split; [apply executes_b, X2|]. split; [apply rec_b, X3|]. split; reflexivity.
Qed.

(** Everything else is harmless: no other command with whatever arguments, entry or exit
    stops the monitor, and no step at all waits for a lock forever or lets a realm
    write to a structure of the monitor. *)
Theorem C26_partial : forall c h m o, reachable c h m -> op_ok o ->
  ~ stuck (step c h m o) /\ (harmless c m o -> ~ stopped (step c h m o)).
Proof. exact harmless_step. Qed.

(** Commands of the demonstration are harmless, among them a REC_CREATE that succeeds and one
    whose first auxiliary granule is bad *)
Example C26_example : exists m, reachable dcfg dhw m /\
  harmless dcfg m (OCmd 1 (KRttReadEntry (gr 0) 0 3)) /\
  harmless dcfg m (OCmd 1 (KRecCreate (Some (mkRecParams 1 1 0 (fun i => i) 16 (fun _ => gr 200))) (gr 1) (gr 71) (gr 100))) /\
  harmless dcfg m (OCmd 1 (KPsciComplete (gr 14) (gr 15) 0)) /\
  harmless dcfg m (OExit 0 (mkEv ExcIrq 0 0 0 no_env) dfin no_tm).
Proof.
  exists (after (d_base ++ [ORegs 0 (fun i => match i with 0 => 0xC4000003 | _ => i end) 0 256 5 (fun _ => 0)])). set (m := after _).
  assert (RR : forall ru r, m_cpu m 0 = Some ru -> rec_is m (ru_rec ru) r -> r_pstate r = 5).
  { intros ru r E R. assert (E1 : option_map ru_rec (m_cpu m 0) = Some (gr 14)) by (vm_compute; reflexivity). rewrite E in E1. cbn [option_map] in E1. injection E1 as E1.
    destruct R as [_ R]. rewrite E1 in R. assert (K : match g_mem (m_gr m (gr 14)) with CRec q => r_pstate q =? 5 | _ => false end = true) by (vm_compute; reflexivity).
    rewrite R in K. apply N.eqb_eq, K. }
  split; [apply good_reach; vm_compute; reflexivity|]. split; [intro K; inversion K|]. split; [|split].
  - intro K. inversion K as [|p rd rec pa n L1 L2 [U _]| | |]; subst. specialize (U 0 ltac:(lia)). destruct U as [_ U]. vm_compute in U. discriminate U.
  - intro K. inversion K as [| | | |ca ta st r t R1 R2 P E NI]; subst. apply NI. destruct R1 as [_ R1].
    assert (X : match g_mem (m_gr m (gr 14)) with CRec q => r_regs q 0 =? 0xC4000003 | _ => false end = true) by (vm_compute; reflexivity).
    rewrite R1 in X. apply N.eqb_eq in X. rewrite X. vm_compute. auto.
  - intros ru r E R. split; [|intros [F _]; discriminate F]. split; [|exact I]. rewrite (RR _ _ E R). vm_compute. auto.
Qed.

(* ------------------------------------------------------------------ *)
(** * C25 *)

(** The claim is false: with the arguments above REC_CREATE releases a lock that it
    does not hold. *)
Fixpoint missing {A} (n : nat) (p : prog A) (s : state) : bool :=
  match act p s with
  | ANext p' s' => match n with Datatypes.S k => missing k p' s' | O => false end
  | AFail => match p with Unlock _ _ | AssertLocked _ _ => true | _ => false end
  | _ => false
  end.
Lemma missing_ok : forall A n (p : prog A) s, missing n p s = true -> releases_free p s.
Proof.
  intros A n. induction n as [|n IH]; intros p s H; cbn [missing] in H; destruct (act p s) as [p' s'| | |] eqn:E; try discriminate H.
  - destruct p; try discriminate H; cbn [act] in E; destruct (s_locks s g) eqn:L; try discriminate E; exists O, g, p, s; cbn [acts_n]; auto.
  - destruct (IH _ _ H) as (n' & g & k & s2 & F & X). exists (Datatypes.S n'), g, k, s2. cbn [acts_n]. rewrite E. auto.
  - destruct p; try discriminate H; cbn [act] in E; destruct (s_locks s g) eqn:L; try discriminate E; exists O, g, p, s; cbn [acts_n]; auto.
Qed.
Theorem C25_refuted : exists c h m p q rd rec pa, reachable c h m /\ m_cpu m p = None /\
  releases_free (cmd_prog c (m_gr m) (KRecCreate q rd rec pa)) (cpu_state m p).
Proof.
  exists dcfg, dhw, d_state, 1, (Some (mkRecParams 1 1 0 (fun i => i) 16 (fun i => gr (if i =? 1 then 200 else 70)))), (gr 1), (gr 71), (gr 100).
  split; [exact d_state_reachable|]. split; [vm_compute; reflexivity|].
  apply (missing_ok _ 1000). vm_compute. reflexivity.
Qed.

(** No command does that otherwise.  For REC_CREATE the only case is an auxiliary granule after
    the first that is not usable or given twice ([sp_aux]). *)
Theorem C25_partial : forall c h m p k, reachable c h m -> op_ok (OCmd p k) -> m_cpu m p = None -> ~ stops c m k ->
  ~ releases_free (cmd_prog c (m_gr m) k) (cpu_state m p).
Proof. exact harmless_locks. Qed.
Example C25_example : exists m, reachable dcfg dhw m /\ m_cpu m 1 = None /\
  ~ stops dcfg m (KRecCreate (Some (mkRecParams 1 1 0 (fun i => i) 16 (fun _ => gr 200))) (gr 1) (gr 71) (gr 100)).
Proof.
  exists d_state. split; [exact d_state_reachable|]. split; [vm_compute; reflexivity|].
  intro K. inversion K as [|p rd rec pa n L1 L2 [U _]| | |]; subst. specialize (U 0 ltac:(lia)). destruct U as [_ U]. vm_compute in U. discriminate U.
Qed.

(* ------------------------------------------------------------------ *)
(** * C50 *)

(** Mapping a slot that is in use and unmapping one that is not are failed assertions (State.v
    [run]), so that C26_partial covers the first half of the claim.  After every step the slots
    of a CPU that executes no REC are all empty, and those in use on the others are exactly the REC
    and its sixteen auxiliary granules. *)
Theorem C50_idle : forall c h m p z, reachable c h m -> (forall a, ~ executes m p a) -> m_slots m p z = false.
Proof.
  intros c h m p z Re NE. apply (proj2 (at_rest c h m Re)). destruct (m_cpu m p) as [ru|] eqn:E; [|reflexivity].
  exfalso. apply (NE (ru_rec ru)). exists ru. auto.
Qed.
Theorem C50_running : forall c h m p a z, reachable c h m -> executes m p a ->
  (m_slots m p z = true <-> z = SLOT_REC \/ (SLOT_REC_AUX0 <= z /\ z < SLOT_REC_AUX0 + 16)).
Proof. intros c h m p a z Re (ru & E & _). apply (running_slots c h); [exact Re|congruence]. Qed.
Theorem C50_commands : forall c h m p k m' r z, next c h m (OCmd p k) m' r -> m_slots m' p z = false.
Proof.
  intros c h m p k m' r z (Re & OK & ST). assert (Re' : reachable c h m') by (eapply next_reachable; split; [exact Re|]; split; [exact OK|exact ST]).
  apply (proj2 (at_rest c h m' Re')). cbn [step] in ST. destruct (m_cpu m p) eqn:E; [discriminate ST|].
  destruct (run (cmd_prog c (m_gr m) k) (cpu_state m p)); try discriminate ST. injection ST as <- _. exact E.
Qed.
(** And all locks are free between steps *)
Theorem C50_locks : forall c h m a, reachable c h m -> m_locks m a = false.
Proof. intros c h m a Re. apply (proj1 (at_rest c h m Re)). Qed.
Example C50_example : exists m, reachable dcfg dhw m /\ executes m 0 (gr 14) /\ (forall a, ~ executes m 1 a) /\
  (exists m' r, next dcfg dhw m (OCmd 1 (KDataDestroy (gr 0) 0)) m' r).
Proof.
  exists d_state. split; [exact d_state_reachable|]. split; [exact d_executes|]. split.
  - intros a (ru & E & _). assert (F : m_cpu d_state 1 = None) by (vm_compute; reflexivity). congruence.
  - exists (after (d_base ++ [OCmd 1 (KDataDestroy (gr 0) 0)])), (last_reply (d_base ++ [OCmd 1 (KDataDestroy (gr 0) 0)])).
    apply (good_next d_base). vm_compute. reflexivity.
Qed.

Definition safe_theorems := (@C26_rec_create_refuted, @C26_map_refuted, @C26_psci_refuted, @C26_icc_refuted, @C26_levels_refuted, @C26_partial,
  @C25_refuted, @C25_partial, @C50_idle, @C50_running, @C50_commands, @C50_locks).
Print Assumptions safe_theorems.
