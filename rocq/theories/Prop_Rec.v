(** C19, C20, C21: execution contexts.  The vocabulary is in Spec.v, SpecStep.v,
    SpecExit.v and SpecRec.v. *)
From Coq Require Import NArith ZArith List Bool.
From Verif Require Import Bits S2tte State Granule RecFields Measure RmiRtt RmiRealm Psci RmiRec Gic Esr Rsi RecRun Arch Mmu Machine
  Spec SpecStep SpecExit SpecRec Demo Demo2 Demo3 Own Step Step2 Step9 Step10.
Import ListNotations.
Local Open Scope N_scope.

(* ------------------------------------------------------------------ *)
(** * C19 *)

(** PSCI_COMPLETE has no effect, or the calling REC waits, the target is another REC of the same
    realm and the one that the calling REC named in x1, and the request is completed: a target that is on stays
    as it is and the caller is told so; the host can deny to start one that is off; otherwise it starts
    as the caller asked; AFFINITY_INFO tells whether the target is on (0) or off (1). *)
Theorem C19_complete : forall c h m p ca ta st m' x, next c h m (OCmd p (KPsciComplete ca ta st)) m' (Reply x) ->
  (x0 x <> RMI_SUCCESS /\ forall a, m_gr m' a = m_gr m a) \/
  exists rc rt rc' rt' v, rec_is m ca rc /\ rec_is m ta rt /\ rec_is m' ca rc' /\ rec_is m' ta rt' /\ ca <> ta /\
    r_g_rd rc = r_g_rd rt /\ realm_index (r_regs rc 1) = r_idx rt /\ (forall q, ~ executes m q ca) /\ answered rc v rc' /\
    ((waits rc PSCI_CPU_ON /\ turned_on m ta rt /\ rt' = rt /\ v = PSCI_RETURN_ALREADY_ON /\ (x0 x = RMI_SUCCESS <-> st = 0)) \/
     (waits rc PSCI_CPU_ON /\ ~ turned_on m ta rt /\ st = PSCI_RETURN_DENIED /\ rt' = rt /\ v = PSCI_RETURN_DENIED /\ x0 x = RMI_SUCCESS) \/
     (waits rc PSCI_CPU_ON /\ ~ turned_on m ta rt /\ st = 0 /\ started rc rt rt' /\ v = 0 /\ x0 x = RMI_SUCCESS) \/
     (waits rc PSCI_AFFINITY /\ rt' = rt /\ st = 0 /\ x0 x = RMI_SUCCESS /\ (turned_on m ta rt /\ v = 0 \/ ~ turned_on m ta rt /\ v = 1))).
Proof. exact psci_done. Qed.

(** A REC becomes one that cannot be entered by its own CPU_OFF alone and one that can by such a
    completion; it waits when it makes a request with an entry point in the protected half. *)
Theorem C19_power : forall c h m o m' rp, next c h m o m' rp -> forall a r r', rec_is m a r -> rec_is m' a r' ->
  (r_runnable r' = r_runnable r /\ r_psci_pending r' = r_psci_pending r) \/
  (psci_request m o a r PSCI_CPU_OFF /\ r_runnable r = true /\ r_runnable r' = false /\ r_psci_pending r' = r_psci_pending r) \/
  (exists d, realm m (r_g_rd r) d /\ r_psci_pending r = false /\ r_psci_pending r' = true /\ r_runnable r' = r_runnable r /\ r_regs r' = r_regs r /\
     realm_index (r_regs r 1) < rd_rec_count d /\ realm_index (r_regs r 1) <> r_idx r /\
     ((psci_request m o a r PSCI_CPU_ON /\ protected (rd_ctx d) (r_regs r 2)) \/ (psci_request m o a r PSCI_AFFINITY /\ r_regs r 2 = 0))) \/
  (exists p t s, o = OCmd p (KPsciComplete a t s) /\ r_psci_pending r = true /\ r_psci_pending r' = false /\ r_runnable r' = r_runnable r) \/
  (exists p ca s x, o = OCmd p (KPsciComplete ca a s) /\ rp = Reply x /\ x0 x = RMI_SUCCESS /\ s = 0 /\ r_runnable r = false /\ r_runnable r' = true /\ r_psci_pending r' = r_psci_pending r).
Proof. exact power_step. Qed.

(** While it waits, its registers stay as it left them. *)
Theorem C19_waiting : forall c h m o m' rp, next c h m o m' rp -> forall a r r', rec_is m a r -> rec_is m' a r' -> r_psci_pending r = true ->
  (r_psci_pending r' = true /\ r_regs r' = r_regs r /\ r_sys r' = r_sys r) \/ exists p t s, o = OCmd p (KPsciComplete a t s).
Proof. exact pending_step. Qed.

(** The first REC asks to start the second at address 64 with the value 5. *)
Definition d_wait : list op := d_base ++ d_smc 0xC4000003 1 64 5.
Definition d_complete (st : N) : op := OCmd 1 (KPsciComplete (gr 14) (gr 15) st).
Example C19_example :
  (exists m' x r r' t', next dcfg dhw (after d_wait) (d_complete 0) m' (Reply x) /\ x0 x = RMI_SUCCESS /\ rec_is (after d_wait) (gr 14) r /\ waits r PSCI_CPU_ON /\
     rec_is m' (gr 14) r' /\ r_regs r' 0 = 0 /\ rec_is m' (gr 15) t' /\ r_runnable t' = true /\ r_pc t' = 64 /\ r_regs t' 0 = 5) /\
  (exists m' x t', next dcfg dhw (after d_wait) (d_complete PSCI_RETURN_DENIED) m' (Reply x) /\ x0 x = RMI_SUCCESS /\ rec_is m' (gr 15) t' /\ r_runnable t' = false).
Proof.
  split.
  - assert (E : staged d_wait (d_complete 0) (fun m m' rp => let r := rec_of m (gr 14) in let r' := rec_of m' (gr 14) in let t' := rec_of m' (gr 15) in
      succ rp && is_rec_b m (gr 14) && r_psci_pending r && (r_regs r 0 =? 0xC4000000 + PSCI_CPU_ON) && is_rec_b m' (gr 14) && (r_regs r' 0 =? 0) &&
      is_rec_b m' (gr 15) && r_runnable t' && (r_pc t' =? 64) && (r_regs t' 0 =? 5)) = true) by (vm_compute; reflexivity).
    apply stage in E. destruct E as (m' & rp & NX & E). revert NX E. generalize (after d_wait) as m. intros m NX E. cbv zeta in E. facts E.
    destruct (succ_reply rp ltac:(assumption)) as [E1 E2]. rewrite E1 in NX.
    exists m', (res_of rp), (rec_of m (gr 14)), (rec_of m' (gr 14)), (rec_of m' (gr 15)). unfold waits.
    repeat (split; try assumption; try (apply rec_b; assumption)). right. left. symmetry. assumption.
  - assert (E : staged d_wait (d_complete PSCI_RETURN_DENIED) (fun m m' rp => succ rp && is_rec_b m' (gr 15) && negb (r_runnable (rec_of m' (gr 15)))) = true)
      by (vm_compute; reflexivity).
    apply stage in E. destruct E as (m' & rp & NX & E). revert NX E. generalize (after d_wait) as m. intros m NX E. facts E.
    destruct (succ_reply rp ltac:(assumption)) as [E1 E2]. rewrite E1 in NX.
    exists m', (res_of rp), (rec_of m' (gr 15)). repeat (split; try assumption; try (apply rec_b; assumption)).
Qed.

(* ------------------------------------------------------------------ *)
(** * C20 *)

(** REC_ENTER leaves every general register as it is or gives it one of the values of [given]; the stack
    pointer, the mode and the system registers stay as they are and the program counter too or it moves over the
    emulated instruction; or the host answers an access to the unprotected half with an external abort, which the REC then takes. *)
Theorem C20_entry : forall c h m p a ra e fi tm m' rp r r', next c h m (OEnter p a ra (Some e) fi tm) m' rp -> rec_is m a r -> rec_is m' a r' ->
  (forall i, r_regs r' i = r_regs r i \/ given r e i (r_regs r' i)) /\ r_sp_el0 r' = r_sp_el0 r /\
  ((r_pstate r' = r_pstate r /\ (forall q, ~ In q own_regs -> r_sys r' q = r_sys r q) /\
      (r_pc r' = r_pc r \/ (emulated r e /\ r_pc r' = (r_pc r + 4) mod 2 ^ 64))) \/
   (asked_sea r e /\ abort_taken r r')).
Proof. exact regs_step. Qed.

(** and a load that the host emulates really is completed. *)
Theorem C20_emulated : forall c h m p a ra e fi tm m' r r', next c h m (OEnter p a ra (Some e) fi tm) m' Entered -> rec_is m a r -> rec_is m' a r' ->
  sr_base (r_set_ripas r) = sr_top (r_set_ripas r) -> emulated r e -> N.testbit (r_last_esr r) 6 = false -> field (r_last_esr r) 16 5 <> 31 ->
  r_regs r' (field (r_last_esr r) 16 5) = Z.to_N (load_value (r_last_esr r) (en_gprs e 0)) /\ r_pc r' = (r_pc r + 4) mod 2 ^ 64.
Proof.
  intros c h m p a ra e fi tm m' r r' H R R'. destruct (told_step _ _ _ _ _ _ _ _ _ _ _ _ H R R') as (_ & _ & K). exact K.
Qed.

(** The REC loads a halfword with sign extension into x7 from the unprotected half; the host
    gives the value 0x12348001; or it answers with an external abort. *)
Definition esr_load : N := 36 * 2 ^ 26 + 2 ^ 24 + 1 * 2 ^ 22 + 2 ^ 21 + 7 * 2 ^ 16 + 2 ^ 15 + 7.
Definition d_load : list op := d_base ++
  [ORegs 0 (fun i => i) 0 256 5 (fun _ => 0); OExit 0 (mkEv ExcSync esr_load 0x1234567 ((2 ^ 32 + 2 ^ 21) / 256) no_env) dfin no_tm].
Definition d_emulate (flags : N) : op := OEnter 0 (gr 14) (gr 102) (Some (mkEnter flags (fun _ => 0x12348001) 0 (fun _ => 0))) dfin no_tm.
Example C20_example :
  (exists m' r r', next dcfg dhw (after d_load) (d_emulate 1) m' Entered /\ rec_is (after d_load) (gr 14) r /\ rec_is m' (gr 14) r' /\
     emulated r (mkEnter 1 (fun _ => 0x12348001) 0 (fun _ => 0)) /\ r_regs r 7 = 7 /\ r_regs r' 7 = 2 ^ 64 - 2 ^ 15 + 1 /\ r_pc r' = 260) /\
  (exists m' r r', next dcfg dhw (after d_load) (d_emulate 2) m' Entered /\ rec_is (after d_load) (gr 14) r /\ rec_is m' (gr 14) r' /\
     asked_sea r (mkEnter 2 (fun _ => 0x12348001) 0 (fun _ => 0)) /\ r_regs r' 7 = 7 /\ r_sys r' ELR_EL1 = 256 /\ r_sys r' FAR_EL1 = 0x1234567).
Proof.
  split.
  - assert (E : staged d_load (d_emulate 1) (fun m m' rp => let r := rec_of m (gr 14) in let r' := rec_of m' (gr 14) in
      entered rp && is_rec_b m (gr 14) && is_rec_b m' (gr 14) && (field (r_last_esr r) 26 6 =? 36) && N.testbit (r_last_esr r) 24 &&
      (r_regs r 7 =? 7) && (r_regs r' 7 =? 2 ^ 64 - 2 ^ 15 + 1) && (r_pc r' =? 260)) = true) by (vm_compute; reflexivity).
    apply stage in E. destruct E as (m' & rp & NX & E). revert NX E. generalize (after d_load) as m. intros m NX E. cbv zeta in E. facts E.
    rewrite (entered_reply rp ltac:(assumption)) in NX. exists m', (rec_of m (gr 14)), (rec_of m' (gr 14)). unfold emulated.
    repeat (split; try assumption; try (apply rec_b; assumption)).
  - assert (E : staged d_load (d_emulate 2) (fun m m' rp => let r := rec_of m (gr 14) in let r' := rec_of m' (gr 14) in
      entered rp && is_rec_b m (gr 14) && is_rec_b m' (gr 14) && (field (r_last_esr r) 26 6 =? 36) &&
      negb (fault_ipa (r_last_hpfar r) <? 2 ^ (ipa_bits (r_ctx r) - 1)) &&
      (r_regs r' 7 =? 7) && (r_sys r' ELR_EL1 =? 256) && (r_sys r' FAR_EL1 =? 0x1234567)) = true) by (vm_compute; reflexivity).
    apply stage in E. destruct E as (m' & rp & NX & E). revert NX E. generalize (after d_load) as m. intros m NX E. cbv zeta in E. facts E.
    rewrite (entered_reply rp ltac:(assumption)) in NX. exists m', (rec_of m (gr 14)), (rec_of m' (gr 14)). unfold asked_sea, protected.
    rewrite <- N.ltb_nlt. repeat (split; try assumption; try (apply rec_b; assumption)).
Qed.

(* ------------------------------------------------------------------ *)
(** * C21 *)

(** The claim is false for a store whose syndrome is not valid (bit 24 is 0), which cannot be
    emulated: the low byte of x0 is disclosed. *)
Definition esr_bad : N := 36 * 2 ^ 26 + 2 ^ 6 + 7.
Definition d_bad_store : list op := d_base ++ [ORegs 0 (fun i => 0xAB + i) 0 256 5 (fun _ => 0)].
Definition d_bad_exit : op := OExit 0 (mkEv ExcSync esr_bad 0x1234567 ((2 ^ 32 + 2 ^ 21) / 256) no_env) dfin no_tm.
Theorem C21_store_refuted : exists c h m p ev fi tm m' x, next c h m (OExit p ev fi tm) m' (Exited RMI_SUCCESS (Some x)) /\
  ev_exc ev = ExcSync /\ class ev = 36 /\ N.testbit (ev_esr ev) 24 = false /\ ex_gprs x 0 = 0xAB.
Proof.
  assert (E : staged d_bad_store d_bad_exit (fun m m' rp => exited rp && (ex_gprs (exit_of rp) 0 =? 0xAB)) = true) by (vm_compute; reflexivity).
  apply stage in E. destruct E as (m' & rp & NX & E). facts E. rewrite (exited_reply rp ltac:(assumption)) in NX.
  exists dcfg, dhw, (after d_bad_store), 0, (mkEv ExcSync esr_bad 0x1234567 ((2 ^ 32 + 2 ^ 21) / 256) no_env), dfin, no_tm, m', (exit_of rp).
  split; [exact NX|]. split; [reflexivity|]. split; [vm_compute; reflexivity|]. split; [vm_compute; reflexivity|]. assumption.
Qed.

(** What every exit record of a REC discloses; with the exception above [tl_shared] is what is claimed *)
Theorem C21_exit_partial : forall c h m p ev fi tm m' x a r d, next c h m (OExit p ev fi tm) m' (Exited RMI_SUCCESS (Some x)) ->
  executes m p a -> rec_is m a r -> realm m (r_g_rd r) d -> tells m (OExit p ev fi tm) a d r ev x.
Proof. exact tells_step. Qed.

(** The hypotheses are met; the load above is told like this. *)
Definition load_ev : event := mkEv ExcSync esr_load 0x1234567 ((2 ^ 32 + 2 ^ 21) / 256) no_env.
Example C21_example : exists m m' x, next dcfg dhw m (OExit 0 load_ev dfin no_tm) m' (Exited RMI_SUCCESS (Some x)) /\ executes m 0 (gr 14) /\
  (exists r d, rec_is m (gr 14) r /\ realm m (r_g_rd r) d) /\ 
  ex_reason x = 0 /\ ex_esr x = 36 * 2 ^ 26 + 2 ^ 24 + 1 * 2 ^ 22 + 2 ^ 15 + 7 /\ ex_far x = 0x567 /\ ex_hpfar x = (2 ^ 32 + 2 ^ 21) / 256 /\ ex_gprs x 0 = 0.
Proof.
  assert (E : staged (d_base ++ [ORegs 0 (fun i => i) 0 256 5 (fun _ => 0)]) (OExit 0 load_ev dfin no_tm) (fun m m' rp => let x := exit_of rp in
    exited rp && match m_cpu m 0 with Some ru => ru_rec ru =? gr 14 | None => false end && is_rec_b m (gr 14) && (r_g_rd (rec_of m (gr 14)) =? gr 0) && is_rd_b m (gr 0) &&
    (ex_reason x =? 0) && (ex_esr x =? 36 * 2 ^ 26 + 2 ^ 24 + 1 * 2 ^ 22 + 2 ^ 15 + 7) && (ex_far x =? 0x567) && (ex_hpfar x =? (2 ^ 32 + 2 ^ 21) / 256) &&
    (ex_gprs x 0 =? 0)) = true) by (vm_compute; reflexivity).
  apply stage in E. destruct E as (m' & rp & NX & E). revert NX E. generalize (after (d_base ++ [ORegs 0 (fun i => i) 0 256 5 (fun _ => 0)])) as m.
  intros m NX E. cbv zeta in E. facts E. rewrite (exited_reply rp ltac:(assumption)) in NX.
  exists m, m', (exit_of rp). split; [exact NX|]. split; [apply executes_b; assumption|].
  split; [exists (rec_of m (gr 14)), (rd_of m (gr 0)); split; [apply rec_b; assumption|]|auto].
  match goal with E : r_g_rd _ = gr 0 |- _ => rewrite E end. apply realm_b. assumption.
Qed.

Definition rec_theorems := (@C19_complete, @C19_power, @C19_waiting, @C20_entry, @C20_emulated, @C21_store_refuted, @C21_exit_partial).
Print Assumptions rec_theorems.
