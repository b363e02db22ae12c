(** What an entry does to the registers of a REC (C20), the completion of PSCI
    requests (C19) and the content of exit records (C21). *)
From Coq Require Import NArith ZArith List Bool Lia.
From Verif Require Import Bits S2tte State Granule Wp RecFields RmiRec Psci Gic Esr Rsi RecRun Arch Mmu Machine Spec SpecStep SpecExit SpecRec
  ExitFacts Inv Effects CmdRec CmdRsi CmdRsi2 CmdRun CmdRun2 CmdAll MInv MStep Mpidr Own StepView Step Step2 Step3 Step4 Step5 Step6 Step7 Step8.
Import ListNotations.
Local Open Scope N_scope.

Lemma inject_sea : forall r esr far ri, inject_sync_idabort r esr far 16 = Some ri -> realm_mode (r_pstate r) -> field esr 26 6 = 36 ->
  (~ (from_el0 (r_pstate r) = true /\ aarch32 (r_pstate r) = true /\ N.testbit (r_sys r SCTLR2_EL1) 5 = true) ->
    r_pc ri = vector_entry (r_sys r VBAR_EL1) (r_pstate r) (N.testbit (r_sys r SCTLR2_EL1) 5)) /\
  r_pstate ri = pstate_el1h /\ r_sys ri FAR_EL1 = far /\ r_sys ri ELR_EL1 = r_pc r /\ r_sys ri SPSR_EL1 = r_pstate r /\
  injected_esr esr (r_pstate r) 16 (r_sys ri ESR_EL1) /\
  (forall q, ~ In q [FAR_EL1; ELR_EL1; SPSR_EL1; ESR_EL1] -> r_sys ri q = r_sys r q).
Proof.
  intros r esr far ri H RM EC. split.
  { intro A. destruct (inject_idabort_spec r esr far 16 RM) as (r' & E & P & _); [cbn; lia|reflexivity|exact A|]. rewrite H in E. injection E as <-. exact P. }
  unfold inject_sync_idabort in H. destruct (calc_esr_spec esr (r_pstate r) 16) as (e1 & E1 & E2); [cbn; lia|reflexivity|]. rewrite E1 in H.
  destruct (calc_vector_entry _ _ _); [|discriminate]. injection H as <-.
  split; [reflexivity|]. split; [reflexivity|]. split; [reflexivity|]. split; [reflexivity|]. split; [exact E2|].
  intros q Q. cbn [r_sys set_pstate set_pc set_sysreg set_sys]. unfold upd_sys. destruct q; try reflexivity; exfalso; apply Q; cbn; tauto.
Qed.

Lemma bits_pos : forall c h m a r, reachable c h m -> rec_is m a r -> 0 < ipa_bits (r_ctx r).
Proof.
  intros c h m a r RC R. destruct (rec_realm _ _ _ RC _ _ R) as (d & [S1 M1] & RO). rewrite (proj1 RO). destruct (reach_minv _ _ _ RC) as (gh & M).
  destruct (i_rd _ _ _ _ (mv_inv _ _ _ M) _ S1) as (d1 & M2 & (X & _) & _). rewrite M1 in M2. injection M2 as <-. unfold ctx_ok in X. lia.
Qed.

Lemma own_sys : forall q, ~ In q own_regs -> ~ In q loop_sys /\ q <> HCR_EL2.
Proof. intros q N. split; [intro X; apply N; cbn in X |- *; tauto|intros ->; apply N; left; reflexivity]. Qed.

Lemma regs_step : forall c h m p a ra e fi tm m' rp r r', next c h m (OEnter p a ra (Some e) fi tm) m' rp -> rec_is m a r -> rec_is m' a r' ->
  (forall i, r_regs r' i = r_regs r i \/ given r e i (r_regs r' i)) /\ r_sp_el0 r' = r_sp_el0 r /\
  ((r_pstate r' = r_pstate r /\ (forall q, ~ In q own_regs -> r_sys r' q = r_sys r q) /\
      (r_pc r' = r_pc r \/ (emulated r e /\ r_pc r' = (r_pc r + 4) mod 2 ^ 64))) \/
   (asked_sea r e /\ abort_taken r r')).
Proof.
  intros c h m p a ra e fi tm m' rp r r' H R R'. pose proof H as (RCH & _).
  destruct (rec_inv _ _ _ RCH) as (_ & AL). pose proof (AL _ _ R) as LO. pose proof (sys_inv _ _ _ RCH _ _ R) as LS.
  pose proof (bits_pos _ _ _ _ _ RCH R) as IB.
  destruct (enter_step _ _ _ _ _ _ _ _ _ _ _ H) as (gh & M & K). destruct (mv_pend _ _ _ M a r R) as [(RM & PO & _) _].
  assert (MAIN : forall r6, entry_rec (h_gic h) r e = Some r6 ->
    (forall i, r_regs r' i = r_regs r6 i \/ (r_host_call r6 = true /\ i = 0 /\ r_regs r' i = 0)) -> r_sp_el0 r' = r_sp_el0 r6 -> r_pstate r' = r_pstate r6 -> r_pc r' = r_pc r6 ->
    (forall q, ~ In q own_regs -> r_sys r' q = r_sys r6 q) ->
    (forall i, r_regs r' i = r_regs r i \/ given r e i (r_regs r' i)) /\ r_sp_el0 r' = r_sp_el0 r /\
    ((r_pstate r' = r_pstate r /\ (forall q, ~ In q own_regs -> r_sys r' q = r_sys r q) /\
      (r_pc r' = r_pc r \/ (emulated r e /\ r_pc r' = (r_pc r + 4) mod 2 ^ 64))) \/
     (asked_sea r e /\ abort_taken r r'))).
  { intros r6 E G SP PS PC SY. destruct (entry_regs _ _ _ _ E LO LS IB) as (ER & EF). destruct (entry_req _ _ _ _ E) as (_ & _ & HC & _).
    split.
    { intro i. destruct (G i) as [->|(HC6 & -> & Z)]; [apply ER|]. right. rewrite Z. apply gv_host. congruence. }
    rewrite SP, PS, PC. unfold frame in EF. destruct EF as [(F1 & EF)|[(F1 & F0 & E1 & E2 & EF)|(F1 & E1 & HP & ri & J & EF)]]; injection EF as FA FB FC ES; rewrite ?FA, ?FB, ?FC; (split; [reflexivity|]).
    - left. split; [reflexivity|]. split; [intros q N; rewrite (SY q N), ES; reflexivity|left; reflexivity].
    - left. split; [reflexivity|]. split; [intros q N; rewrite (SY q N), ES; reflexivity|right]. split; [|reflexivity]. unfold emulated. auto.
    - right. split; [unfold asked_sea, protected; split; [exact F1|]; split; [exact E1|lia]|].
      destruct (inject_sea _ _ _ _ J RM E1) as (J1 & J2 & J3 & J4 & J5 & J6 & J7). unfold abort_taken.
      split; [rewrite PC, FC; exact J1|]. split; [rewrite PS, FB; exact J2|]. rewrite !SY by (cbn; intuition discriminate). rewrite ES.
      repeat (split; [assumption|]). intros q N. rewrite SY by (intro X; apply N, in_or_app; right; exact X). rewrite ES. apply J7. intro X. apply N, in_or_app. left. exact X. }
  destruct (K _ _ R R') as [(-> & _)|[(-> & _)|(d & r6 & _ & _ & _ & _ & E & [(l & _ & -> & _)|(r7 & hl & HO & CO & SS & _)])]].
  - split; [auto|]. split; [reflexivity|]. left. auto.
  - split; [auto|]. split; [reflexivity|]. left. split; [reflexivity|]. split; [reflexivity|auto].
  - apply (MAIN _ E); auto.
  - destruct (hc_req _ _ _ _ _ _ _ _ HO) as (_ & _ & _ & _ & HR & HF). apply core_parts in CO. destruct CO as (_ & _ & CP & CR & CPC & CS & _).
    injection HF as HPC HSP HPS HSY. apply (MAIN _ E).
    + intro i. rewrite CR. apply HR.
    + rewrite CS. exact HSP.
    + rewrite CP. exact HPS.
    + rewrite CPC. exact HPC.
    + intros q N. destruct (own_sys _ N) as [N1 N2]. rewrite (SS _ N1). rewrite <- HSY. unfold start_rec. cbn [r_sys set_sysreg set_sys set_last_esr]. unfold upd_sys. destruct q; try reflexivity; congruence.
Qed.

(** ** PSCI *)
Lemma idx_fields : forall w, mpidr_to_rec_idx w = realm_index w.
Proof.
  intro m. unfold mpidr_to_rec_idx, realm_index. rewrite !land_mask_bits by reflexivity.
  change (0 + 4 - 1) with 3. change (8 + 8 - 1) with 15. change (16 + 8 - 1) with 23. change (32 + 8 - 1) with 39.
  pose proof (bits_lt m 3 0) as B0. pose proof (bits_lt m 15 8) as B1. pose proof (bits_lt m 23 16) as B2. pose proof (bits_lt m 39 32) as B3.
  set (a := bits m 3 0) in *. set (b := bits m 15 8) in *. set (d := bits m 23 16) in *. set (e := bits m 39 32) in *. clearbody a b d e.
  change (2 ^ (3 - 0 + 1)) with 16 in B0. change (2 ^ (15 - 8 + 1)) with 256 in B1. change (2 ^ (23 - 16 + 1)) with 256 in B2. change (2 ^ (39 - 32 + 1)) with 256 in B3.
  rewrite !N.shiftr_div_pow2.
  replace (b * 2 ^ 8 / 2 ^ 4) with (b * 2 ^ 4) by (change (2 ^ 8) with 256; change (2 ^ 4) with 16; lia).
  replace (d * 2 ^ 16 / 2 ^ 4) with (d * 2 ^ 12) by (change (2 ^ 16) with 65536; change (2 ^ 4) with 16; change (2 ^ 12) with 4096; lia).
  replace (e * 2 ^ 32 / 2 ^ 12) with (e * 2 ^ 20) by (change (2 ^ 32) with (2 ^ 20 * 2 ^ 12); rewrite N.mul_assoc, N.div_mul by discriminate; reflexivity).
  replace (a * 2 ^ 0) with a by (change (2 ^ 0) with 1; lia).
  rewrite (lor_add_low a b 4) by (change (2 ^ 4) with 16; lia).
  rewrite N.lor_assoc. rewrite (lor_add_low (a + b * 2 ^ 4) d 12) by (change (2 ^ 4) with 16; change (2 ^ 12) with 4096; lia).
  rewrite (lor_add_low _ e 20) by (change (2 ^ 4) with 16; change (2 ^ 12) with 4096; change (2 ^ 20) with 1048576; lia).
  change (2 ^ 4) with 16; change (2 ^ 12) with 4096; change (2 ^ 20) with 1048576. lia.
Qed.

Lemma sctlr_reset : forall w, N.lor SCTLR_EL1_FLAGS (N.land w SCTLR_ELx_EE_BIT) = SCTLR_RESET + field w 25 1 * 2 ^ 25.
Proof.
  intro w. change SCTLR_ELx_EE_BIT with (MASK 1 25). rewrite land_mask_field.
  assert (F : field w 25 1 = 0 \/ field w 25 1 = 1) by apply field1_cases. destruct F as [-> | ->]; vm_compute; reflexivity.
Qed.

Lemma finish_answered : forall rc v, r_psci_pending rc = true -> answered rc v (finish_psci rc v).
Proof.
  intros rc v P. unfold answered. split; [reflexivity|]. split; [reflexivity|].
  split; [intros i [<-|[<-|[<-|[]]]]; reflexivity|]. split.
  - intros i L. unfold finish_psci. cbn [r_regs set_psci_pending set_reg set_regs]. unfold upd.
    destruct (N.eqb_spec i 3); [lia|]. destruct (N.eqb_spec i 2); [lia|]. destruct (N.eqb_spec i 1); [lia|]. destruct (N.eqb_spec i 0); [lia|]. reflexivity.
  - destruct rc; cbn in P; subst; reflexivity.
Qed.
Lemma start_started : forall rc rt, r_runnable rt = false -> started rc rt (psci_start rc rt).
Proof.
  intros rc rt P. unfold started. split; [reflexivity|]. split; [reflexivity|]. split; [reflexivity|]. split.
  { intros i N0. unfold psci_start. cbn [r_regs set_runnable set_pc set_reg set_regs psci_reset_rec set_sysreg set_sys set_pstate]. unfold upd. destruct (N.eqb_spec i 0); [contradiction|reflexivity]. }
  split; [reflexivity|]. split; [apply sctlr_reset|]. split; [intros q NQ; unfold psci_start, psci_reset_rec; cbn [r_sys set_runnable set_pc set_reg set_regs set_sysreg set_sys set_pstate]; unfold upd_sys; destruct q; try reflexivity; contradiction|].
  destruct rt; cbn in P; subst; reflexivity.
Qed.

Lemma turned : forall c h m a r, reachable c h m -> rec_is m a r -> (negb (g_ref (m_gr m a) =? 0) = true \/ r_runnable r = true) <-> turned_on m a r.
Proof.
  intros c h m a r RC R. unfold turned_on. destruct (rec_counts _ _ _ RC _ _ R) as [(E & X)|(E & X)]; rewrite E; split.
  - auto.
  - auto.
  - intros [K|K]; [discriminate K|auto].
  - intros [K|(p & K)]; [auto|]. exfalso. eapply X, K.
Qed.

Lemma psci_done : forall c h m p ca ta st m' x, next c h m (OCmd p (KPsciComplete ca ta st)) m' (Reply x) ->
  (x0 x <> RMI_SUCCESS /\ forall a, m_gr m' a = m_gr m a) \/
  exists rc rt rc' rt' v, rec_is m ca rc /\ rec_is m ta rt /\ rec_is m' ca rc' /\ rec_is m' ta rt' /\ ca <> ta /\
    r_g_rd rc = r_g_rd rt /\ realm_index (r_regs rc 1) = r_idx rt /\ (forall q, ~ executes m q ca) /\ answered rc v rc' /\
    ((waits rc PSCI_CPU_ON /\ turned_on m ta rt /\ rt' = rt /\ v = PSCI_RETURN_ALREADY_ON /\ (x0 x = RMI_SUCCESS <-> st = 0)) \/
     (waits rc PSCI_CPU_ON /\ ~ turned_on m ta rt /\ st = PSCI_RETURN_DENIED /\ rt' = rt /\ v = PSCI_RETURN_DENIED /\ x0 x = RMI_SUCCESS) \/
     (waits rc PSCI_CPU_ON /\ ~ turned_on m ta rt /\ st = 0 /\ started rc rt rt' /\ v = 0 /\ x0 x = RMI_SUCCESS) \/
     (waits rc PSCI_AFFINITY /\ rt' = rt /\ st = 0 /\ x0 x = RMI_SUCCESS /\ (turned_on m ta rt /\ v = 0 \/ ~ turned_on m ta rt /\ v = 1))).
Proof.
  intros c h m p ca ta st m' x H. pose proof H as (RCH & _). destruct (next_good _ _ _ _ _ _ H) as (gh & gh' & labs & M & M' & GE & OE).
  destruct OE as (_ & x1 & inv & E & K & _). injection E as <-. cbn [cmd_eff] in K.
  destruct K as (_ & [(E & (-> & _ & ->))|(rc & rt & rc' & rt' & NE & RC & RT & RF & PC & ->)]).
  { left. split; [rewrite E; discriminate|]. inversion GE; subst; auto. }
  pose proof (mv_inv _ _ _ M) as I.
  pose proof (geffs_last_rec _ [LRec ta rt rt' (g_ref (m_gr m ta))] _ _ _ _ _ _ _ _ _ _ GE I) as LC.
  apply (geffs_app _ [_] [_]) in GE; [|exact I]. destruct GE as (gh1 & G1 & V1 & I1 & GE1 & GE2).
  pose proof (geffs_last_rec _ [] _ _ _ _ _ _ _ _ _ _ GE1 I) as LT.
  assert (O1 : forall a, a <> ta -> G1 a = m_gr m a).
  { intros a N. pose proof (geffs_gran _ _ _ _ _ _ _ _ GE1 I a) as GC. apply gchanges_one in GC. destruct GC as [E|(E & _)]; [exact E|congruence]. }
  assert (O2 : forall a, a <> ca -> m_gr m' a = G1 a).
  { intros a N. pose proof (geffs_gran _ _ _ _ _ _ _ _ GE2 I1 a) as GC. apply gchanges_one in GC. destruct GC as [E|(E & _)]; [exact E|congruence]. }
  assert (RC1 : rec_is m' ca rc') by (split; rewrite LC; reflexivity).
  assert (RT1 : rec_is m' ta rt') by (split; rewrite O2, LT by congruence; reflexivity).
  pose proof (turned _ _ _ _ _ RCH RT) as TO.
  apply psci_cases in PC. destruct PC as [(E & -> & ->)|(P & RD1 & IX & v & -> & PC)].
  { left. split; [rewrite E; discriminate|]. intro a. destruct (N.eq_dec a ca) as [->|N1].
    - rewrite LC. destruct RC as [X Y]. destruct (m_gr m ca). cbn in *. congruence.
    - rewrite O2 by exact N1. destruct (N.eq_dec a ta) as [->|N2]; [|apply O1, N2]. rewrite LT. destruct RT as [X Y]. destruct (m_gr m ta). cbn in *. congruence. }
  right. exists rc, rt, (finish_psci rc v), rt', v. rewrite idx_fields in IX. repeat (split; [assumption|]).
  split; [intros q X; destruct (rec_counts _ _ _ RCH _ _ RC) as [(E & _)|(_ & E)]; [congruence|eapply E, X]|].
  split; [apply finish_answered, P|].
  assert (OFF : forall u, negb (g_ref (m_gr m ta) =? 0) = u -> u = false -> r_runnable rt = false -> ~ turned_on m ta rt).
  { intros u E1 E2 E3 T. apply TO in T. destruct T; congruence. }
  destruct PC as [(W & [(U & -> & -> & X)|[(U & RN & -> & -> & -> & X)|(U & RN & -> & -> & -> & X)]])|(W & -> & -> & X & ->)].
  - left. split; [split; assumption|]. split; [apply TO, U|]. split; [reflexivity|]. split; [reflexivity|]. destruct X as [(-> & ->)|(-> & ->)]; split; intro Z; try reflexivity; discriminate Z.
  - right. left. split; [split; assumption|]. split; [eapply OFF; [reflexivity|exact U|exact RN]|]. auto.
  - right. right. left. split; [split; assumption|]. split; [eapply OFF; [reflexivity|exact U|exact RN]|]. split; [reflexivity|]. split; [apply start_started, RN|]. auto.
  - right. right. right. split; [split; assumption|]. split; [reflexivity|]. split; [reflexivity|]. split; [exact X|].
    destruct (negb (g_ref (m_gr m ta) =? 0)) eqn:EU; [left; split; [apply TO; auto|reflexivity]|].
    destruct (r_runnable rt) eqn:ER; [left; split; [apply TO; auto|reflexivity]|right; split; [eapply OFF; eauto|reflexivity]].
Qed.

(** When a REC is started or stopped and when it waits *)
Lemma power_step : forall c h m o m' rp, next c h m o m' rp -> forall a r r', rec_is m a r -> rec_is m' a r' ->
  (r_runnable r' = r_runnable r /\ r_psci_pending r' = r_psci_pending r) \/
  (psci_request m o a r PSCI_CPU_OFF /\ r_runnable r = true /\ r_runnable r' = false /\ r_psci_pending r' = r_psci_pending r) \/
  (exists d, realm m (r_g_rd r) d /\ r_psci_pending r = false /\ r_psci_pending r' = true /\ r_runnable r' = r_runnable r /\ r_regs r' = r_regs r /\
     realm_index (r_regs r 1) < rd_rec_count d /\ realm_index (r_regs r 1) <> r_idx r /\
     ((psci_request m o a r PSCI_CPU_ON /\ protected (rd_ctx d) (r_regs r 2)) \/ (psci_request m o a r PSCI_AFFINITY /\ r_regs r 2 = 0))) \/
  (exists p t s, o = OCmd p (KPsciComplete a t s) /\ r_psci_pending r = true /\ r_psci_pending r' = false /\ r_runnable r' = r_runnable r) \/
  (exists p ca s x, o = OCmd p (KPsciComplete ca a s) /\ rp = Reply x /\ x0 x = RMI_SUCCESS /\ s = 0 /\ r_runnable r = false /\ r_runnable r' = true /\ r_psci_pending r' = r_psci_pending r).
Proof.
  intros c h m o m' rp H a r r' R R'. destruct (rec_step _ _ _ _ _ _ H) as (gh & M & K). destruct (K _ _ _ R R') as [->|C]; [left; auto|].
  destruct C as [base top x D q0|p target status x rt rc' rt' -> -> NE RT RF PC|p calling status x rc rc' rt' -> -> NE RT RF PC
    |p ra e fi tm labs out n r0 r1 -> EO CP RP|p ev fi tm ru d labs n out at_ simd r1 -> CP EA RD1 RO RP|p regs sp pc pstate sys -> EX|p ipa rt v -> EX];
    try (left; auto; fail).
  - apply psci_cases in PC. destruct PC as [(_ & -> & _)|(P & _ & _ & v & -> & _)]; [left; auto|]. right. right. right. left. exists p, target, status. auto.
  - apply psci_cases in PC. destruct PC as [(_ & _ & ->)|(P & _ & _ & v & _ & [(_ & [(_ & -> & _)|[(_ & _ & _ & -> & _)|(_ & RN & -> & -> & _ & X)]])|(_ & _ & -> & _)])]; try (left; auto; fail).
    right. right. right. right. exists p, calling, 0, x. auto 8.
  - left. clear K M EO RP CP. destruct (enter_step _ _ _ _ _ _ _ _ _ _ _ H) as (gh1 & _ & K). destruct (K _ _ R R') as [(-> & _)|[(-> & _)|(d & r6 & _ & _ & _ & _ & ER & Q)]]; [auto|auto|].
    apply entry_req in ER. destruct ER as (E1 & E2 & _).
    destruct Q as [(l & _ & -> & _)|(r7 & hl & HC & E & _)]; [auto|]. apply core_parts in E. destruct E as (_ & E & _).
    symmetry in E. apply pend_parts in E. destruct E as (_ & _ & E3 & E4). apply hc_req in HC. destruct HC as (H1 & H2 & _).
    change (r_runnable (start_rec r7 e)) with (r_runnable r7) in *. change (r_psci_pending (start_rec r7 e)) with (r_psci_pending r7) in *. split; congruence.
  - apply run_split in RO. destruct RO as (l0 & v1 & sd & go & r2 & n2 & EO & E & E2 & _). apply app_inj_tail in E. destruct E as [_ E]. injection E as <- _.
    apply core_parts in E2. destruct E2 as (_ & E2 & _ & ER & _). pose proof (exit_pend _ _ _ _ _ _ _ _ _ _ _ _ EO) as P. cbv zeta in P. cbn [v_rec] in P. rewrite <- E2 in P.
    assert (XE : executes m p a) by (exists ru; auto). pose proof XE as XO. apply exec_on in XO. destruct (mv_run _ _ _ M _ _ XO) as (rb & RB & _ & NR & _).
    assert (rb = r) by (destruct RB, R; congruence). subst rb. destruct NR as (_ & NP & _ & NR).
    destruct P as [P|(X1 & X2 & _ & [(P1 & P2 & P3 & P)|[(P1 & P2 & P & _)|[(P1 & P2 & P3 & P4 & P5 & P & P6)|(P1 & P)]]])].
    + symmetry in P. apply pend_parts in P. destruct P as (_ & _ & P3 & P4). left. auto.
    + left. apply pend_parts in P. destruct P as (_ & _ & P4 & P5). auto.
    + left. apply pend_parts in P. destruct P as (_ & _ & P4 & P5). auto.
    + right. right. left. exists d. apply pend_parts in P. destruct P as (_ & _ & P7 & P8). rewrite idx_fields in *. rewrite ER.
      repeat (split; [assumption|]). pose proof (smc_exit _ _ _ fi tm _ _ XE R X1 X2) as SM. unfold psci_request, protected.
      unfold cpu_on_fid, affinity_fid, psci_fid, u32 in *. cbn [v_rec] in *.
      destruct P1 as [P1|[P1|[P1|[P1|[]]]]]; [left|left|right|right]; (split; [split; [exact SM|rewrite <- P1; cbn; auto]|]); first [apply P2; auto|apply P3; auto].
    + right. left. apply pend_parts in P. destruct P as (_ & _ & P7 & P8). split; [split; [apply smc_exit; assumption|left; symmetry; exact P1]|]. auto.
Qed.

(** A REC that waits keeps its registers *)
Lemma pending_step : forall c h m o m' rp, next c h m o m' rp -> forall a r r', rec_is m a r -> rec_is m' a r' -> r_psci_pending r = true ->
  (r_psci_pending r' = true /\ r_regs r' = r_regs r /\ r_sys r' = r_sys r) \/ exists p t s, o = OCmd p (KPsciComplete a t s).
Proof.
  intros c h m o m' rp H a r r' R R' P. destruct (rec_step _ _ _ _ _ _ H) as (gh & M & K). destruct (K _ _ _ R R') as [->|C]; [left; auto|].
  assert (NX : forall p, ~ executes m p a).
  { intros p X. apply exec_on in X. destruct (mv_run _ _ _ M _ _ X) as (rb & RB & _ & NR & _). assert (rb = r) by (destruct RB, R; congruence). subst rb. destruct NR as (_ & NR & _). congruence. }
  destruct C as [base top x D q0|p target status x rt rc' rt' -> -> NE RT RF PC|p calling status x rc rc' rt' -> -> NE RT RF PC
    |p ra e fi tm labs out n r0 r1 -> EO CP RP|p ev fi tm ru d labs n out at_ simd r1 -> CP EA RD1 RO RP|p regs sp pc pstate sys -> EX|p ipa rt v -> EX];
    try (left; auto; fail); try (exfalso; eapply NX; eassumption).
  - right. eauto.
  - left. apply psci_cases in PC. destruct PC as [(_ & _ & ->)|(_ & _ & _ & v & _ & [(_ & [(_ & -> & _)|[(_ & _ & _ & -> & _)|(_ & RN & _)]])|(_ & _ & -> & _)])]; auto.
    exfalso. destruct (mv_pend _ _ _ M a r R) as [_ OF]. destruct (OF RN). congruence.
  - left. destruct (enter_step _ _ _ _ _ _ _ _ _ _ _ H) as (gh1 & _ & K1). destruct (K1 _ _ R R') as [(-> & _)|[(-> & _)|(d & r6 & _ & _ & _ & PP & _)]]; [auto|auto|congruence].
  - exfalso. eapply NX. exists ru. eauto.
Qed.

(** ** What the realm is told when it continues *)
Lemma entry_told : forall f r e r6, entry_rec f r e = Some r6 -> last_sys r ->
  let q := r_set_ripas r in
  (sr_base q <> sr_top q -> r_regs r6 0 = 0 /\ r_regs r6 1 = sr_addr q /\
     r_regs r6 2 = if (sr_ripas q =? 1) && negb (sr_addr q =? sr_top q) && N.testbit (en_flags e) 4 then 1 else 0) /\
  (sr_base q = sr_top q -> emulated r e -> N.testbit (r_last_esr r) 6 = false -> field (r_last_esr r) 16 5 <> 31 ->
     r_regs r6 (field (r_last_esr r) 16 5) = Z.to_N (load_value (r_last_esr r) (en_gprs e 0)) /\ r_pc r6 = (r_pc r + 4) mod 2 ^ 64).
Proof.
  intros f r e r6 H LS q. unfold entry_rec in H. cbv zeta in H. set (r1 := set_gic r _) in *.
  destruct (complete_sea_insertion r1 e) as [[r2|]|] eqn:H2; try discriminate.
  apply sea_keeps in H2. destruct H2 as (_ & A2 & A3 & A4 & _ & A6).
  destruct (complete_mmio_emulation r2 e) as [r3|] eqn:H3; try discriminate. pose proof H3 as H4.
  apply mmio_keeps in H3. destruct H3 as (_ & B2 & B3 & _). injection H as <-.
  assert (Q : r_set_ripas r3 = r_set_ripas r). { apply pend_parts in A2. apply pend_parts in B2. destruct A2 as (A2 & _), B2 as (B2 & _). rewrite B2, A2. reflexivity. }
  set (r4 := set_req r3 _).
  assert (SY : complete_sysreg_emulation (complete_set_ripas r4) e = complete_set_ripas r4).
  { unfold complete_sysreg_emulation. cbv zeta. assert (E : r_last_esr (complete_set_ripas r4) = r_last_esr r).
    { unfold complete_set_ripas. cbv zeta. destruct (_ =? _); cbn [r_last_esr set_req set_reg set_regs]; change (r_last_esr r4) with (r_last_esr r3); rewrite B3, A3; reflexivity. }
    rewrite E. destruct (N.eqb_spec (esr_ec (r_last_esr r)) EC_SYSREG) as [E1|]; cbn [negb]; [|reflexivity]. rewrite (LS E1). reflexivity. }
  rewrite SY. clear SY.
  assert (Rb : sr_base (r_set_ripas r4) = sr_base q) by (unfold q; rewrite <- Q; reflexivity).
  assert (Rt : sr_top (r_set_ripas r4) = sr_top q) by (unfold q; rewrite <- Q; reflexivity).
  assert (Ra : sr_addr (r_set_ripas r4) = sr_addr q) by (unfold q; rewrite <- Q; reflexivity).
  assert (Rr : sr_ripas (r_set_ripas r4) = sr_ripas q) by (unfold q; rewrite <- Q; reflexivity).
  assert (Rp : sr_response (r_set_ripas r4) = if has (en_flags e) FLAG_RIPAS_RESPONSE then REJECT else ACCEPT) by reflexivity.
  unfold complete_set_ripas. cbv zeta. rewrite Rb, Rt, Ra, Rr, Rp. split.
  - intro NQ. destruct (N.eqb_spec (sr_base q) (sr_top q)) as [|_]; [contradiction|].
    unfold FLAG_RIPAS_RESPONSE. rewrite has_pow2. unfold set_reg, upd. cbn [r_regs set_regs set_req N.eqb Pos.eqb]. split; [reflexivity|]. split; [reflexivity|].
    destruct (sr_ripas _ =? 1), (sr_addr _ =? _), (N.testbit (en_flags e) 4); reflexivity.
  - intros EQ (F0 & F1 & E1 & E2) W N31. rewrite EQ, N.eqb_refl. change (r_regs r4) with (r_regs r3). change (r_pc r4) with (r_pc r3).
    pose proof (complete_mmio_spec r2 e F0 F1) as MS. rewrite H4 in MS. destruct MS as (_ & _ & M3 & M4 & _). split.
    + rewrite M4, A3. change (r_last_esr r1) with (r_last_esr r).
      rewrite W, N.eqb_refl. destruct (N.eqb_spec (field (r_last_esr r) 16 5) 31); [contradiction|]. reflexivity.
    + rewrite M3, A6; [reflexivity|]. unfold FLAG_INJECT_SEA. rewrite has_pow2. exact F1.
Qed.

Lemma told_step : forall c h m p a ra e fi tm m' r r', next c h m (OEnter p a ra (Some e) fi tm) m' Entered -> rec_is m a r -> rec_is m' a r' ->
  let q := r_set_ripas r in
  sr_base (r_set_ripas r') = sr_top (r_set_ripas r') /\
  (sr_base q <> sr_top q -> r_regs r' 0 = 0 /\ r_regs r' 1 = sr_addr q /\
     r_regs r' 2 = if (sr_ripas q =? 1) && negb (sr_addr q =? sr_top q) && N.testbit (en_flags e) 4 then 1 else 0) /\
  (sr_base q = sr_top q -> emulated r e -> N.testbit (r_last_esr r) 6 = false -> field (r_last_esr r) 16 5 <> 31 ->
     r_regs r' (field (r_last_esr r) 16 5) = Z.to_N (load_value (r_last_esr r) (en_gprs e 0)) /\ r_pc r' = (r_pc r + 4) mod 2 ^ 64).
Proof.
  intros c h m p a ra e fi tm m' r r' H R R' q. pose proof H as (RCH & _). pose proof (sys_inv _ _ _ RCH _ _ R) as LS.
  destruct (enter_step _ _ _ _ _ _ _ _ _ _ _ H) as (gh & M & K). destruct (mv_pend _ _ _ M a r R) as [(RM & PO & _) _].
  destruct (K _ _ R R') as [(_ & _ & X)|[(_ & _ & X)|(d & r6 & _ & _ & _ & _ & E & [(l & _ & _ & _ & x & _ & X)|(r7 & hl & HO & CO & SS & _)])]];
    [congruence|discriminate X|destruct (fi_wok fi); discriminate X|].
  destruct (hc_req _ _ _ _ _ _ _ _ HO) as (_ & _ & _ & HQ & HR & HF). apply core_parts in CO. destruct CO as (_ & CP & _ & CR & CPC & _).
  apply pend_parts in CP. destruct CP as (CP & _). injection HF as HPC _ _ _.
  destruct (entry_told _ _ _ _ E LS) as (T1 & T2). destruct (entry_req _ _ _ _ E) as (_ & _ & HC & resp & EQ). cbv zeta in EQ.
  assert (REG : forall i, r_regs r' i = r_regs r6 i \/ (r_host_call r = true /\ i = 0 /\ r_regs r' i = 0)).
  { intro i. rewrite CR, <- HC. apply HR. }
  split.
  { rewrite CP. change (r_set_ripas (start_rec r7 e)) with (r_set_ripas r7). rewrite HQ, EQ. destruct (N.eqb_spec (sr_base (r_set_ripas r)) (sr_top (r_set_ripas r))) as [X|]; [exact X|reflexivity]. }
  split.
  - intro NQ. destruct (T1 NQ) as (X0 & X1 & X2). 
    split; [destruct (REG 0) as [->|(_ & _ & Z)]; assumption|].
    split; [destruct (REG 1) as [->|(_ & Z & _)]; [assumption|discriminate Z]|destruct (REG 2) as [->|(_ & Z & _)]; [assumption|discriminate Z]].
  - intros NQ EM W N31. split.
    + destruct (REG (field (r_last_esr r) 16 5)) as [->|(HCT & _)]; [apply (T2 NQ EM W N31)|].
      destruct (PO HCT) as (_ & X & _). destruct EM as (_ & _ & EM & _). exfalso.
      apply N.eqb_eq in X. change EC_SMC with (EC 23) in X. rewrite esr_ec_field in X by reflexivity. rewrite EM in X. discriminate X.
    + rewrite CPC. change (r_pc (start_rec r7 e)) with (r_pc r7). rewrite HPC. destruct EM as (F0 & F1 & E1 & E2).
      apply T2; [assumption|unfold emulated; auto|assumption|assumption].
Qed.
