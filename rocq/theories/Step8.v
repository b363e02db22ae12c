(** RECs: exits, requests and the registers at entry *)
From Coq Require Import NArith ZArith List Bool Lia ZifyBool ZifyN.
From Verif Require Import Bits S2tte S2tteFacts State Granule Wp RecFields Measure RmiRtt RmiRealm Psci RmiRec Gic Esr Rsi RecRun
  Arch ArchFacts Mmu Machine Spec SpecStep SpecExit SpecRec Inv InvTree MmuFacts InvStep InvStep2 InvStep3 Effects Frames CmdLib CmdData CmdRipas
  CmdRec CmdRealm CmdRsi CmdRsi2 CmdRun CmdRun2 CmdAll MInv MStep View StepView Own ExitFacts Step Step2 Step3 Step4 Step5 Step6 Step7.
Import ListNotations.
Local Open Scope N_scope.

(** ** Exits *)
Lemma exit_step : forall c h m p ev fi tm m' rp, next c h m (OExit p ev fi tm) m' rp ->
  exists gh a r d simd labs v1 simd' go r', MInv c gh m /\ executes m p a /\ rec_is m a r /\ realm m (r_g_rd r) d /\ rec_is m' a r' /\ no_request r /\
    r_ctx r = rd_ctx d /\ exit_out c h gh (m_gr m) d ev (mkV r exit_zero (m_att m a)) simd labs (v1, simd', go) /\ 
    core r' = core (v_rec v1) /\ same_sys loop_sys r' (v_rec v1) /\ m_att m' = upd (m_att m) a (v_att v1) /\
    ((go = true /\ rp = Entered) \/
     (exists x, told x = told (if go then ex_set_reason exit_zero RMI_EXIT_IRQ else v_exit v1) /\
        rp = if fi_wok fi then Exited RMI_SUCCESS (Some x) else Exited RMI_ERROR_INPUT None)).
Proof.
  intros c h m p ev fi tm m' rp H. destruct (rec_inv _ _ _ (proj1 H)) as [F _].
  destruct (next_good _ _ _ _ _ _ H) as (gh & gh' & labs & M & M' & GE & OE). cbn [op_eff] in OE.
  destruct OE as (-> & ru & r & d & out & at_ & simd & CP & RR & R & RO & _ & AT & RP).
  pose proof (F _ _ CP) as FE. rewrite FE in RO.
  apply run_split in RO. destruct RO as (l0 & v1 & sd & go & r' & n & EO & -> & CR & SS & -> & K).
  assert (ON : on (m_cpu m) p = Some (ru_rec ru)) by (unfold on; rewrite CP; reflexivity).
  assert (NR : no_request r).
  { destruct (mv_run _ _ _ M _ _ ON) as (r0 & R0 & _ & NR & _). assert (r0 = r) by (destruct R0, RR; congruence). subst r0. exact NR. }
  assert (EX : r_ctx r = rd_ctx d).
  { destruct (rec_realm _ _ _ (proj1 H) _ _ RR) as (d0 & R0 & E). destruct R0 as [_ Q1], R as [_ Q2]. assert (d0 = d) by congruence. subst d0. apply E. }
  exists gh, (ru_rec ru), r, d, (ru_simd ru), l0, v1, sd, go, r'. split; [exact M|]. split; [exists ru; auto|]. split; [exact RR|]. split; [exact R|].
  split. { unfold rec_is. rewrite (geffs_last_rec _ _ _ _ _ _ _ _ _ _ _ _ GE (mv_inv _ _ _ M)). split; reflexivity. }
  split; [exact NR|]. split; [exact EX|]. split; [exact EO|]. split; [exact CR|]. split; [exact SS|]. split; [exact AT|].
  destruct K as [(-> & -> & _)|(x & T & ->)].
  - left. split; [reflexivity|]. apply RP.
  - right. exists x. split.
    + destruct go; [|exact T]. rewrite T. rewrite (exit_go _ _ _ _ _ _ _ _ _ _ _ EO eq_refl). reflexivity.
    + unfold answer in RP. destruct (fi_wok fi); apply RP.
Qed.

(** ** Requests *)
Lemma exit_pend : forall c h gh G d ev v simd labs v1 simd' go, exit_out c h gh G d ev v simd labs (v1, simd', go) ->
  let r := v_rec v in
  pend (v_rec v1) = pend r \/
  (ev_exc ev = ExcSync /\ esr_ec (ev_esr ev) = EC_SMC /\ go = false /\
    ((rsi_fid v = SMC_RSI_FID 7 /\ ~ range_bad d v /\ u32 (r_regs r 3) <= 1 /\
        pend (v_rec v1) = (mkReq (r_regs r 1) (r_regs r 2) (r_regs r 1) (u32 (r_regs r 3)) (u32 (r_regs r 4)) (sr_response (r_set_ripas r)), r_host_call r, r_psci_pending r, r_runnable r)) \/
     (rsi_fid v = SMC_RSI_FID 9 /\ r_regs r 1 mod 256 = 0 /\ pend (v_rec v1) = (r_set_ripas r, true, r_psci_pending r, r_runnable r) /\ r_regs (v_rec v1) = r_regs r) \/
     (In (psci_fid v) [SMC32_PSCI_CPU_ON; SMC64_PSCI_CPU_ON; SMC32_PSCI_AFFINITY_INFO; SMC64_PSCI_AFFINITY_INFO] /\
        (cpu_on_fid v -> r_regs r 2 < 2 ^ (ipa_bits (rd_ctx d) - 1)) /\ (affinity_fid v -> r_regs r 2 = 0) /\
        mpidr_to_rec_idx (r_regs r 1) < rd_rec_count d /\ mpidr_to_rec_idx (r_regs r 1) <> r_idx r /\
        pend (v_rec v1) = (r_set_ripas r, r_host_call r, true, r_runnable r) /\ r_regs (v_rec v1) = r_regs r) \/
     (psci_fid v = SMC32_PSCI_CPU_OFF /\ pend (v_rec v1) = (r_set_ripas r, r_host_call r, r_psci_pending r, false)))).
Proof.
  intros c h gh G d ev v simd labs v1 simd' go H r. remember (v1, simd', go) as o eqn:Eo.
  destruct H as [| | |r' He Hr|r' x' sd go' Hx He Hs|labs o Hx He Hs]; injection Eo as <- <- <-; try (left; reflexivity).
  - left. subst r'. cbn [v_rec]. destruct (_ || _); reflexivity.
  - left. apply sync_keeps in Hs. destruct Hs as (_ & Hs & _). destruct go'; exact Hs.
  - assert (K : forall v2 a2, o = (v2, a2) -> pend (v_rec (if snd (rsi_result o) then fst (rsi_result o) else keep_last ev (fst (rsi_result o)))) = pend (v_rec v2) /\
      snd (rsi_result o) = negb (ra_exit a2) /\
      (ra_update a2 = false -> r_regs (v_rec (if snd (rsi_result o) then fst (rsi_result o) else keep_last ev (fst (rsi_result o)))) = r_regs (v_rec v2))).
    { intros v2 a2 ->. unfold rsi_result. cbv zeta. cbn [fst snd]. destruct (ra_abort a2), (ra_exit a2), (ra_update a2); cbn [negb fst snd]; (split; [reflexivity|]); (split; [reflexivity|]); try discriminate; intros _; reflexivity. }
    destruct Hs; destruct (K _ _ eq_refl) as (K1 & K2 & K3); rewrite K1; try (left; reflexivity); right; (split; [exact Hx|]); (split; [exact He|]); (split; [exact K2|]); cbn [v_rec v_set_rec v_set_exit] in *.
    + left. subst. split; [assumption|]. split; [|split; [assumption|reflexivity]]. unfold range_bad. cbn [v_rec v_set_exit] in *. unfold r in *. lia.
    + right. left. split; [assumption|]. split; [assumption|]. split; [reflexivity|]. apply K3. reflexivity.
    + right. right. left. split; [assumption|]. split; [assumption|]. split; [assumption|]. split; [assumption|]. split; [assumption|]. split; [reflexivity|]. apply K3. reflexivity.
    + right. right. right. split; [assumption|]. reflexivity.
Qed.

Lemma pend_parts : forall r q h p u, pend r = (q, h, p, u) -> r_set_ripas r = q /\ r_host_call r = h /\ r_psci_pending r = p /\ r_runnable r = u.
Proof.
  intros r q h p u E. unfold pend in E. assert (K : forall (A B C D : Type) (a a' : A) (b b' : B) (c c' : C) (d d' : D), (a, b, c, d) = (a', b', c', d') -> a = a' /\ b = b' /\ c = c' /\ d = d').
  { intros. injection H as -> -> -> ->. auto. } apply K in E. exact E.
Qed.
Lemma smc_exit : forall m p ev fi tm a r, executes m p a -> rec_is m a r -> ev_exc ev = ExcSync -> esr_ec (ev_esr ev) = EC_SMC -> smc m (OExit p ev fi tm) a r.
Proof. intros m p ev fi tm a r E R X S. exists p, ev, fi, tm. split; [reflexivity|]. split; [exact E|]. split; [exact R|]. split; [exact X|]. apply ec_smc, S. Qed.

Lemma entry_req : forall f r e r6, entry_rec f r e = Some r6 -> r_psci_pending r6 = r_psci_pending r /\ r_runnable r6 = r_runnable r /\ r_host_call r6 = r_host_call r /\
  exists resp, let q := r_set_ripas r in
    r_set_ripas r6 = if sr_base q =? sr_top q then mkReq (sr_base q) (sr_top q) (sr_addr q) (sr_ripas q) (sr_change_destroyed q) resp
                     else mkReq 0 0 (sr_addr q) (sr_ripas q) (sr_change_destroyed q) resp.
Proof.
  intros f r e r6 H. unfold entry_rec in H. cbv zeta in H. set (r1 := set_gic r _) in *.
  destruct (complete_sea_insertion r1 e) as [[r2|]|] eqn:H2; try discriminate.
  assert (K2 : pend r2 = pend r).
  { unfold complete_sea_insertion in H2. destruct (negb (has (en_flags e) FLAG_INJECT_SEA)); [injection H2 as <-; reflexivity|].
    destruct (negb _); [discriminate|]. destruct (addr_in_rec_par _ _); [discriminate|].
    destruct (inject_sync_idabort r1 (r_last_esr r1) (r_last_far r1) FSC_SEA) eqn:J; [|discriminate]. injection H2 as <-. apply inject_idabort_keeps in J. apply J. }
  destruct (complete_mmio_emulation r2 e) as [r3|] eqn:H3; try discriminate.
  assert (K3 : pend r3 = pend r).
  { rewrite <- K2. unfold complete_mmio_emulation in H3. cbv zeta in H3. destruct (negb _); [injection H3 as <-; auto|]. destruct (has _ FLAG_INJECT_SEA); [injection H3 as <-; auto|].
    destruct (_ || _); [discriminate|]. injection H3 as <-. destruct (_ && _); auto. }
  apply pend_parts in K3. destruct K3 as (A1 & A2 & A3 & A4). injection H as <-.
  assert (SY : forall q, r_psci_pending (complete_sysreg_emulation q e) = r_psci_pending q /\ r_runnable (complete_sysreg_emulation q e) = r_runnable q /\
    r_host_call (complete_sysreg_emulation q e) = r_host_call q /\ r_set_ripas (complete_sysreg_emulation q e) = r_set_ripas q).
  { intro q. unfold complete_sysreg_emulation. cbv zeta. destruct (negb _); [auto|]. destruct (_ =? 0); [auto|]. destruct (_ =? 31); auto. }
  match goal with |- context [complete_sysreg_emulation ?q e] => destruct (SY q) as (S1 & S2 & S3 & S4) end. rewrite S1, S2, S3, S4. rewrite A1.
  unfold complete_set_ripas. change (r_set_ripas (set_req ?x ?y)) with y. cbn [sr_base sr_top]. destruct (sr_base (r_set_ripas r) =? sr_top (r_set_ripas r)).
  - change (r_psci_pending (set_req r3 ?x)) with (r_psci_pending r3). change (r_runnable (set_req r3 ?x)) with (r_runnable r3). change (r_host_call (set_req r3 ?x)) with (r_host_call r3).
    repeat (split; [assumption|]). eexists. reflexivity.
  - cbv zeta. repeat (split; [assumption|]). eexists. reflexivity.
Qed.
Lemma hc_req : forall gh G rd x r6 e labs r7, hc_out gh G rd x r6 e labs (inl r7) ->
  r_psci_pending r7 = r_psci_pending r6 /\ r_runnable r7 = r_runnable r6 /\ r_host_call r7 = false /\ r_set_ripas r7 = r_set_ripas r6 /\
  (forall i, r_regs r7 i = r_regs r6 i \/ (r_host_call r6 = true /\ i = 0 /\ r_regs r7 i = 0)) /\
  (r_pc r7, r_sp_el0 r7, r_pstate r7, r_sys r7) = (r_pc r6, r_sp_el0 r6, r_pstate r6, r_sys r6).
Proof.
  intros gh G rd x r6 e labs r7 [(E0 & _ & E)|[(E0 & l & b & pa & g & f & _ & _ & _ & _ & _ & E)|(E0 & _ & l & b & z & _ & _ & _ & E)]].
  - injection E as ->. repeat (split; [auto|]); auto.
  - injection E as ->. split; [reflexivity|]. split; [reflexivity|]. split; [reflexivity|]. split; [reflexivity|]. split; [|reflexivity]. intro i.
    change (r_regs (set_host_call (set_reg r6 0 RSI_SUCCESS) false) i) with (upd (r_regs r6) 0 RSI_SUCCESS i). unfold upd.
    destruct (N.eqb_spec i 0) as [->|]; [right|left]; auto.
  - destruct (e_ripas z); try discriminate E. injection E as ->. repeat (split; [auto|]); auto.
Qed.

Lemma request_step : forall c h m o m' rp, next c h m o m' rp -> forall a r r', rec_is m a r -> rec_is m' a r' ->
  let q := r_set_ripas r in let q' := r_set_ripas r' in
  same_req q' q \/
  (rsi_call m o a r RSI_SET /\ sr_base q = sr_top q /\ sr_base q' = r_regs r 1 /\ sr_addr q' = r_regs r 1 /\ sr_top q' = r_regs r 2 /\
     sr_ripas q' = r_regs r 3 mod 2 ^ 32 /\ sr_change_destroyed q' = r_regs r 4 mod 2 ^ 32 /\ sr_ripas q' <= 1 /\ r_regs r 1 < r_regs r 2) \/
  (exists base top x, done o rp (KRttSetRipas (r_g_rd r) a base top) x /\ base = sr_addr q /\ sr_base q' = sr_base q /\ sr_top q' = sr_top q /\
     sr_addr q' = x1 x /\ sr_ripas q' = sr_ripas q /\ sr_change_destroyed q' = sr_change_destroyed q) \/
  (exists p ra e fi tm, o = OEnter p a ra (Some e) fi tm /\ sr_base q' = sr_top q').
Proof.
  intros c h m o m' rp H a r r' R R' q q'. destruct (rec_step _ _ _ _ _ _ H) as (gh & M & K). destruct (K _ _ _ R R') as [->|C]; [left; unfold same_req; auto|].
  destruct C as [base top x D q0|p target status x rt rc' rt' -> -> NE RT RF PC|p calling status x rc rc' rt' -> -> NE RT RF PC
    |p ra e fi tm labs out n r0 r1 -> EO CP RP|p ev fi tm ru d labs n out at_ simd r1 -> CP EA RD1 RO RP|p regs sp pc pstate sys -> EX|p ipa rt v -> EX];
    try (left; unfold same_req; auto; fail).
  - right. right. left. exists base, top, x. split; [exact D|]. destruct (set_ripas_facts _ _ _ _ _ _ _ _ _ _ _ H D) as (d & rc & rc' & _ & RC & _ & _ & _ & F).
    assert (rc = r) by (destruct RC, R; congruence). subst rc. cbv zeta in F. destruct F as (F & _). split; [symmetry; exact F|]. unfold q', q0. cbn [r_set_ripas set_req sr_base sr_top sr_addr sr_ripas sr_change_destroyed]. auto.
  - left. apply psci_last in PC. destruct PC as ((_ & _ & _ & _ & P5) & _). unfold q', q. rewrite P5. unfold same_req. auto.
  - left. apply psci_last in PC. destruct PC as (_ & (_ & _ & _ & _ & P5)). unfold q', q. rewrite P5. unfold same_req. auto.
  - clear K M EO RP CP. destruct (enter_step _ _ _ _ _ _ _ _ _ _ _ H) as (gh1 & _ & K). destruct (K _ _ R R') as [(-> & _)|[(-> & _)|(d & r6 & _ & _ & _ & _ & ER & Q)]]; [left; unfold same_req; auto|left; unfold same_req; auto|].
    apply entry_req in ER. destruct ER as (_ & _ & _ & resp & ER). cbv zeta in ER.
    assert (E : r_set_ripas r1 = r_set_ripas r6).
    { destruct Q as [(l & _ & -> & _)|(r7 & hl & HC & E & _)]; [reflexivity|]. apply core_parts in E. destruct E as (_ & E & _).
      symmetry in E. apply pend_parts in E. destruct E as (E & _). apply hc_req in HC. destruct HC as (_ & _ & _ & HC & _).
      rewrite <- HC. exact (eq_sym E). }
    right. right. right. exists p, ra, e, fi, tm. split; [reflexivity|]. unfold q'. rewrite E, ER. destruct (N.eqb_spec (sr_base (r_set_ripas r)) (sr_top (r_set_ripas r))) as [E1|]; [exact E1|reflexivity].
  - apply run_split in RO. destruct RO as (l0 & v1 & sd & go & r2 & n2 & EO & E & E2 & _). apply app_inj_tail in E. destruct E as [_ E]. injection E as <- _.
    apply core_parts in E2. destruct E2 as (_ & E2 & _). pose proof (exit_pend _ _ _ _ _ _ _ _ _ _ _ _ EO) as P. cbv zeta in P. cbn [v_rec] in P. rewrite <- E2 in P.
    assert (XE : executes m p a) by (exists ru; auto).
    destruct P as [P|(X1 & X2 & _ & [(P1 & P2 & P3 & P)|[(P1 & P2 & P & _)|[(P1 & _ & _ & _ & _ & P & _)|(P1 & P)]]])].
    + symmetry in P. apply pend_parts in P. destruct P as (P & _). left. unfold same_req, q, q'. rewrite P. auto.
    + right. left. apply pend_parts in P. destruct P as (P & _). split; [split; [apply smc_exit; assumption|exact P1]|].
      unfold range_bad in P2. cbn [v_rec] in P2. unfold q', q. rewrite P. cbn [sr_base sr_top sr_addr sr_ripas sr_change_destroyed].
      destruct (running _ _ _ (proj1 H) _ _ XE) as (ra & da & RA & _). apply exec_on in XE. destruct (mv_run _ _ _ M _ _ XE) as (rb & RB & _ & NR & _).
      assert (rb = r) by (destruct RB, R; congruence). subst rb. destruct NR as (_ & _ & NR & _). split; [exact NR|]. unfold u32 in *. repeat (split; [auto|]). lia.
    + left. apply pend_parts in P. destruct P as (P & _). unfold same_req, q', q. rewrite P. auto.
    + left. apply pend_parts in P. destruct P as (P & _). unfold same_req, q', q. rewrite P. auto.
    + left. apply pend_parts in P. destruct P as (P & _). unfold same_req, q', q. rewrite P. auto.
Qed.

(** ** Entries *)

(** The last exit is a trap of a system register only when it was a write *)
Definition last_sys (r : recd) : Prop := esr_ec (r_last_esr r) = EC_SYSREG -> N.land (r_last_esr r) 1 = 0.
Definition all_sys (m : mstate) : Prop := forall a r, rec_is m a r -> last_sys r.

Lemma sync_sys : forall h gh r simd esr far hpfar r' x' simd' go, sync_out h gh r exit_zero simd esr far hpfar r' x' simd' go ->
  (go = true -> r_last_esr r' = r_last_esr r) /\ (go = false -> esr_ec esr = EC_SYSREG -> N.land esr 1 = 0).
Proof.
  intros h gh r simd esr far hpfar r' x' simd' go H. split; [intros ->; apply sync_last in H; apply H; reflexivity|]. intros -> E.
  inversion H; subst; try congruence.
  all: first [match goal with K : sysreg_is_write _ = true |- _ => unfold sysreg_is_write in K; apply N.eqb_eq, K end
    |exfalso; match goal with K : In (esr_ec _) _ |- _ => rewrite E in K; destruct K as [K|[K|[]]]; discriminate K end
    |exfalso; match goal with K : ~ In _ _ |- _ => apply K; rewrite E; cbn; auto 8 end
    |exfalso; match goal with K : esr_ec _ = _ |- _ => rewrite E in K; discriminate K end].
Qed.
Lemma ldiff_low : forall w, N.land (N.ldiff w ISV_BIT) 1 = N.land w 1.
Proof.
  intro w. apply N.bits_inj. intro n. rewrite !N.land_spec, N.ldiff_spec. destruct (N.eqb_spec n 0) as [->|]; [|rewrite (N.bits_above_log2 1 n); [rewrite !andb_false_r; reflexivity|cbn; lia]].
  change (N.testbit ISV_BIT 0) with false. cbn [negb]. rewrite andb_true_r. reflexivity.
Qed.
Lemma exit_sys : forall c h gh G d ev v simd labs v1 simd' go, exit_out c h gh G d ev v simd labs (v1, simd', go) ->
  (ev_exc ev = ExcSerror -> esr_ec (ev_esr ev) <> EC_SYSREG) -> v_exit v = exit_zero -> last_sys (v_rec v) -> last_sys (v_rec v1).
Proof.
  intros c h gh G d ev v simd labs v1 simd' go H SE E K. remember (v1, simd', go) as o eqn:Eo.
  destruct H as [| | |r' He Hr|r' x' sd go' Hx He Hs|labs o Hx He Hs]; injection Eo as <- <- <-; try exact K.
  - intro X. exfalso. apply (SE He). exact X.
  - rewrite E in Hs. change (ex_set_reason exit_zero RMI_EXIT_SYNC) with exit_zero in Hs. apply sync_sys in Hs. destruct Hs as (S1 & S2).
    destruct go'; unfold last_sys.
    + cbn [v_rec]. rewrite S1 by reflexivity. exact K.
    + unfold keep_last. cbn [v_rec v_set_rec v_exit]. change (r_last_esr (set_last ?a ?b _ _)) with b. intro X1. destruct (has (ex_esr x') ISV_BIT); [apply S2; auto|].
      rewrite ec_ldiff in X1. rewrite ldiff_low. apply S2; auto.
  - destruct (snd (rsi_result o)).
    + assert (RES : last_sys (v_rec (fst o)) -> last_sys (v_rec (fst (rsi_result o)))).
      { intro L. unfold rsi_result. cbv zeta. destruct (ra_abort (snd o)); cbn [fst v_rec]; destruct (ra_update (snd o)); exact L. }
      apply RES. destruct Hs; exact K.
    + intro X. exfalso. unfold keep_last in X. cbn [v_rec v_set_rec v_exit] in X.
      change (r_last_esr (set_last ?a ?b _ _)) with b in X. destruct (has _ _); rewrite ?ec_ldiff in X; rewrite He in X; discriminate X.
Qed.
Lemma sys_inv : forall c h m, reachable c h m -> all_sys m.
Proof.
  intros c h. apply reach_ind.
  { intros C mem a r [S X]. discriminate X. }
  intros m o m' rp H A a r' R'. pose proof H as (RC & OO & _). destruct (rec_inv _ _ _ RC) as [F _].
  assert (D : {g_state (m_gr m a) = REC} + {g_state (m_gr m a) <> REC}) by decide equality.
  destruct D as [S|S].
  2:{ destruct (rec_new _ _ _ _ _ _ H _ _ R' S) as (p & rd & pa & x & d & _ & _ & ->). intro X. discriminate X. }
  destruct (reach_minv _ _ _ (proj1 H)) as (gh0 & M0). destruct (i_rec _ _ _ _ (mv_inv _ _ _ M0) _ S) as (_ & r & d0 & Mr & _).
  assert (R : rec_is m a r) by (split; assumption).
  destruct (rec_step _ _ _ _ _ _ H) as (gh & M & K). destruct (K _ _ _ R R') as [->|C]; [apply (A _ _ R)|]. pose proof (A _ _ R) as L.
  assert (KEEP : forall q q', r_last_esr q' = r_last_esr q -> last_sys q -> last_sys q').
  { intros q q' E1 LQ. unfold last_sys in *. rewrite E1. exact LQ. }
  destruct C as [base top x D q|p target status x rt rc' rt' -> -> NE RT RF PC|p calling status x rc rc' rt' -> -> NE RT RF PC
    |p ra e fi tm labs out n r0 r1 -> EO CP RP|p ev fi tm ru d labs n out at_ simd r1 -> CP EA RD1 RO RP|p regs sp pc pstate sys -> EX|p ipa rt v -> EX]; try exact L.
  - apply psci_last in PC. destruct PC as ((P1 & _) & _). eapply KEEP; [exact P1|exact L].
  - apply psci_last in PC. destruct PC as (_ & (P1 & _)). eapply KEEP; [exact P1|exact L].
  - clear K M EO RP CP. destruct (enter_step _ _ _ _ _ _ _ _ _ _ _ H) as (gh1 & _ & K). destruct (K _ _ R R') as [(-> & _)|[(-> & _)|(d & r6 & _ & _ & _ & _ & ER & Q)]]; [exact L|exact L|].
    apply entry_last in ER. destruct ER as (E1 & _). destruct Q as [(l & _ & -> & _)|(r7 & hl & HC & E & _)]; [eapply KEEP; [exact E1|exact L]|].
    apply core_parts in E. destruct E as (_ & _ & _ & _ & _ & _ & E & _). intro X. rewrite E in X. discriminate X.
  - apply run_split in RO. destruct RO as (l0 & v1 & sd & go & r2 & n2 & EO & E & E2 & _). apply app_inj_tail in E. destruct E as [_ E]. injection E as <- _.
    apply core_parts in E2. destruct E2 as (_ & _ & _ & _ & _ & _ & E2 & _). eapply KEEP; [exact E2|].
    eapply exit_sys; [exact EO| |cbn [v_exit]; apply (F _ _ CP)|exact L].
    intros X Y. destruct OO as [_ OO]. specialize (OO X). apply N.eqb_eq in Y. change EC_SYSREG with (EC 24) in Y. rewrite esr_ec_field in Y by reflexivity.
    apply N.eqb_eq in Y. unfold field in Y. unfold bits in OO. change (2 ^ (31 - 26 + 1)) with (2 ^ 6) in OO. rewrite OO in Y. discriminate Y.
Qed.

Lemma fipa_eq : forall hp, hpfar_fipa hp = fault_ipa hp.
Proof.
  intro hp. unfold hpfar_fipa, fault_ipa. rewrite land_mask_field, N.shiftl_mul_pow2. rewrite <- N.mul_assoc. reflexivity.
Qed.
Lemma shift_half : forall b, N.shiftr (2 ^ b) 1 = 2 ^ b / 2.
Proof. intro b. rewrite N.shiftr_div_pow2. reflexivity. Qed.

(** What an entry keeps besides the general registers *)
Definition frame (r : recd) := (r_sp_el0 r, r_pstate r, r_pc r, r_sys r).
Lemma entry_regs : forall f r e r6, entry_rec f r e = Some r6 -> last_ok r -> last_sys r -> 0 < ipa_bits (r_ctx r) ->
  (forall i, r_regs r6 i = r_regs r i \/ given r e i (r_regs r6 i)) /\
  ((N.testbit (en_flags e) 1 = false /\ frame r6 = frame r) \/
   (N.testbit (en_flags e) 1 = false /\ N.testbit (en_flags e) 0 = true /\ field (r_last_esr r) 26 6 = 36 /\ N.testbit (r_last_esr r) 24 = true /\
      frame r6 = (r_sp_el0 r, r_pstate r, (r_pc r + 4) mod 2 ^ 64, r_sys r)) \/
   (N.testbit (en_flags e) 1 = true /\ field (r_last_esr r) 26 6 = 36 /\ 2 ^ (ipa_bits (r_ctx r) - 1) <= fault_ipa (r_last_hpfar r) /\
      exists ri, inject_sync_idabort r (r_last_esr r) (r_last_far r) FSC_SEA = Some ri /\ frame r6 = (r_sp_el0 r, r_pstate ri, r_pc ri, r_sys ri))).
Proof.
  intros f r e r6 H LO LS IB. unfold entry_rec in H. cbv zeta in H. set (r1 := set_gic r _) in *.
  assert (HALF : rec_par_size r = 2 ^ (ipa_bits (r_ctx r) - 1)).
  { unfold rec_par_size, rec_ipa_size. rewrite shift_half. replace (ipa_bits (r_ctx r)) with (N.succ (ipa_bits (r_ctx r) - 1)) at 1 by lia.
    rewrite N.pow_succ_r'. rewrite N.mul_comm. apply N.div_mul. discriminate. }
  destruct (complete_sea_insertion r1 e) as [[r2|]|] eqn:H2; try discriminate.
  assert (K2 : r_regs r2 = r_regs r /\ r_last_esr r2 = r_last_esr r /\ r_set_ripas r2 = r_set_ripas r /\ 
    ((N.testbit (en_flags e) 1 = false /\ frame r2 = frame r) \/
     (N.testbit (en_flags e) 1 = true /\ field (r_last_esr r) 26 6 = 36 /\ 2 ^ (ipa_bits (r_ctx r) - 1) <= fault_ipa (r_last_hpfar r) /\
       exists ri, inject_sync_idabort r (r_last_esr r) (r_last_far r) FSC_SEA = Some ri /\ frame r2 = (r_sp_el0 r, r_pstate ri, r_pc ri, r_sys ri)))).
  { unfold complete_sea_insertion, FLAG_INJECT_SEA in H2. rewrite has_pow2 in H2. destruct (N.testbit (en_flags e) 1); cbn [negb] in H2.
    - change EC_DATA_ABORT with (EC 36) in H2. change (r_last_esr r1) with (r_last_esr r) in H2. rewrite esr_ec_field in H2 by reflexivity.
      destruct (N.eqb_spec (field (r_last_esr r) 26 6) 36) as [E|]; [|discriminate]. cbn [negb] in H2.
      change (addr_in_rec_par r1) with (addr_in_rec_par r) in H2. change (r_last_hpfar r1) with (r_last_hpfar r) in H2.
      unfold addr_in_rec_par in H2. rewrite HALF, fipa_eq in H2. destruct (N.ltb_spec (fault_ipa (r_last_hpfar r)) (2 ^ (ipa_bits (r_ctx r) - 1))); [discriminate|].
      destruct (inject_sync_idabort r1 (r_last_esr r) (r_last_far r1) FSC_SEA) as [r2'|] eqn:J; [|discriminate]. injection H2 as <-. change (r_last_far r1) with (r_last_far r) in J.
      assert (J2 : exists ri, inject_sync_idabort r (r_last_esr r) (r_last_far r) FSC_SEA = Some ri /\ r2' = set_gic ri (r_gic r1)).
      { unfold inject_sync_idabort in *. change (r_pstate r1) with (r_pstate r) in J. change (r_sys r1) with (r_sys r) in J.
        destruct (calc_esr_idabort _ _ _); [|discriminate]. destruct (calc_vector_entry _ _ _); [|discriminate]. injection J as <-. eexists. split; reflexivity. }
      destruct J2 as (ri & J2 & ->). pose proof (inject_idabort_keeps _ _ _ _ _ J2) as (_ & Jp & _ & J3 & J4).
      assert (SP : r_sp_el0 ri = r_sp_el0 r).
      { unfold inject_sync_idabort in J2. destruct (calc_esr_idabort _ _ _); [|discriminate]. destruct (calc_vector_entry _ _ _); [|discriminate]. injection J2 as <-. reflexivity. }
      split; [exact J4|]. split; [exact J3|]. symmetry in Jp. apply pend_parts in Jp. split; [symmetry; apply Jp|].
      right. split; [reflexivity|]. split; [exact E|]. split; [assumption|]. exists ri. split; [exact J2|]. unfold frame. change (r_sp_el0 (set_gic ri _)) with (r_sp_el0 ri). rewrite SP. reflexivity.
    - injection H2 as <-. auto 8. }
  destruct K2 as (A1 & A2 & A3 & A4).
  destruct (complete_mmio_emulation r2 e) as [r3|] eqn:H3; try discriminate.
  assert (K3 : r_last_esr r3 = r_last_esr r /\ r_set_ripas r3 = r_set_ripas r /\ (forall i, r_regs r3 i = r_regs r i \/ given r e i (r_regs r3 i)) /\
    (frame r3 = frame r2 \/ (N.testbit (en_flags e) 1 = false /\ N.testbit (en_flags e) 0 = true /\ field (r_last_esr r) 26 6 = 36 /\ N.testbit (r_last_esr r) 24 = true /\
      frame r3 = (r_sp_el0 r2, r_pstate r2, (r_pc r2 + 4) mod 2 ^ 64, r_sys r2)))).
  { destruct (N.testbit (en_flags e) 0) eqn:F0.
    2:{ rewrite complete_mmio_off in H3 by auto. injection H3 as <-. split; [exact A2|]. split; [exact A3|]. split; [intro i; rewrite A1; auto|auto]. }
    destruct (N.testbit (en_flags e) 1) eqn:F1.
    { rewrite complete_mmio_off in H3 by auto. injection H3 as <-. split; [exact A2|]. split; [exact A3|]. split; [intro i; rewrite A1; auto|auto]. }
    pose proof (complete_mmio_spec r2 e F0 F1) as MS. rewrite H3 in MS. rewrite A2 in MS. destruct MS as (M1 & M2 & M3 & M4 & M5).
    assert (Q : forall (A : Type) (g : recd -> A), g (set_pc (set_regs r3 (r_regs r2)) (r_pc r2)) = g r2) by (intros; rewrite M5; reflexivity).
    split; [rewrite <- A2; exact (Q _ r_last_esr)|]. split; [rewrite <- A3; exact (Q _ r_set_ripas)|]. split.
    - intro i. rewrite M4. destruct (N.testbit (r_last_esr r) 6) eqn:W; [rewrite A1; auto|].
      destruct (N.eqb_spec i (field (r_last_esr r) 16 5)) as [Ei|]; cbn [andb]; [|rewrite A1; auto].
      destruct (N.eqb_spec i 31) as [|N31]; cbn [negb]; [rewrite A1; auto|]. right.
      assert (L : 2 ^ (ipa_bits (r_ctx r) - 1) <= fault_ipa (r_last_hpfar r) /\ fault_ipa (r_last_hpfar r) < 2 ^ ipa_bits (r_ctx r)).
      { rewrite <- HALF, <- fipa_eq. apply LO; [|unfold ISV_BIT; rewrite has_pow2; exact M2]. apply N.eqb_eq. change EC_DATA_ABORT with (EC 36). rewrite esr_ec_field by reflexivity. apply N.eqb_eq, M1. }
      apply gv_load; try assumption; apply L.
    - right. repeat (split; [assumption || reflexivity|]). unfold frame. rewrite M3. f_equal; [f_equal; f_equal|]; [exact (Q _ r_sp_el0)|exact (Q _ r_pstate)|exact (Q _ r_sys)]. }
  destruct K3 as (B1 & B2 & B3 & B4). injection H as <-.
  set (r4 := set_req r3 _).
  assert (SY : complete_sysreg_emulation (complete_set_ripas r4) e = complete_set_ripas r4).
  { unfold complete_sysreg_emulation. cbv zeta. assert (E : r_last_esr (complete_set_ripas r4) = r_last_esr r).
    { unfold complete_set_ripas. cbv zeta. destruct (_ =? _); exact B1. }
    rewrite E. destruct (N.eqb_spec (esr_ec (r_last_esr r)) EC_SYSREG) as [E1|]; cbn [negb]; [|reflexivity]. rewrite (LS E1). reflexivity. }
  rewrite SY. split.
  - intro i. unfold complete_set_ripas. cbv zeta.
    assert (Rb : sr_base (r_set_ripas r4) = sr_base (r_set_ripas r)) by (rewrite <- B2; reflexivity).
    assert (Rt : sr_top (r_set_ripas r4) = sr_top (r_set_ripas r)) by (rewrite <- B2; reflexivity).
    assert (Ra : sr_addr (r_set_ripas r4) = sr_addr (r_set_ripas r)) by (rewrite <- B2; reflexivity).
    assert (Rr : sr_ripas (r_set_ripas r4) = sr_ripas (r_set_ripas r)) by (rewrite <- B2; reflexivity).
    assert (Rp : sr_response (r_set_ripas r4) = if has (en_flags e) FLAG_RIPAS_RESPONSE then REJECT else ACCEPT) by reflexivity.
    rewrite Rb, Rt, Ra, Rr, Rp.
    destruct (N.eqb_spec (sr_base (r_set_ripas r)) (sr_top (r_set_ripas r))) as [|NQ]; [apply B3|].
    assert (RV : forall v, In (i, v) [(0, 0); (1, sr_addr (r_set_ripas r)); (2, if (sr_ripas (r_set_ripas r) =? 1) && negb (sr_addr (r_set_ripas r) =? sr_top (r_set_ripas r)) && N.testbit (en_flags e) 4 then 1 else 0)] ->
        given r e i v).
    { intros v I. apply gv_ripas; assumption. }
    unfold FLAG_RIPAS_RESPONSE. rewrite has_pow2. unfold set_reg, upd. cbn [r_regs set_regs set_req].
    destruct (N.eqb_spec i 2) as [->|n2].
    { right. apply RV. right. right. left. f_equal.
      destruct (sr_ripas _ =? 1), (sr_addr _ =? _), (N.testbit (en_flags e) 4); reflexivity. }
    destruct (N.eqb_spec i 1) as [->|n1].
    { right. apply RV. right. left. reflexivity. }
    destruct (N.eqb_spec i 0) as [->|n0]; [right; apply RV; left; reflexivity|]. apply B3.
  - assert (FR : frame (complete_set_ripas r4) = frame r3).
    { unfold complete_set_ripas. cbv zeta. destruct (_ =? _); reflexivity. }
    rewrite FR. destruct B4 as [->|(F1 & F0 & E1 & E2 & ->)].
    + destruct A4 as [(F1 & ->)|A4]; [left; auto|right; right; exact A4].
    + right. left. destruct A4 as [(_ & A4)|(A4 & _)]; [|congruence]. unfold frame in A4. injection A4 as -> -> -> ->. auto 8.
Qed.
