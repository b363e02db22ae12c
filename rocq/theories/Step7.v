(** What single steps do to RECs: the state of a REC across entries and exits *)
From Coq Require Import NArith ZArith List Bool Lia ZifyBool ZifyN.
From Verif Require Import Bits S2tte S2tteFacts State Granule Wp RecFields Measure RmiRtt RmiRealm Psci RmiRec Gic Esr Rsi RecRun
  Arch ArchFacts Mmu Machine Spec SpecStep SpecExit SpecRec Inv InvTree MmuFacts InvStep InvStep2 InvStep3 Effects Frames CmdLib CmdData CmdRipas
  CmdRec CmdRealm CmdRsi CmdRsi2 CmdRun CmdRun2 CmdAll MInv MStep View StepView Own ExitFacts Step Step2 Step3 Step4 Step5 Step6.
Import ListNotations.
Local Open Scope N_scope.

(** What the run loop does not change *)
Definition core (r : recd) := (ident r, pend r, r_pstate r, r_regs r, r_pc r, r_sp_el0 r, (r_last_esr r, r_last_hpfar r, r_last_far r)).
(** The members of an exit record that tell what the realm did *)
Definition told (x : rec_exit) :=
  (ex_reason x, (ex_esr x, ex_far x, ex_hpfar x), ex_gprs x, (ex_ripas_base x, ex_ripas_top x, ex_ripas_value x), ex_imm x).

Lemma head_core : forall tm v, core (v_rec (fst (loop_head tm v))) = core (v_rec v).
Proof.
  intros tm v. unfold loop_head. destruct (snd (check_pending_timers (v_rec v) tm)); cbn [fst v_rec v_set_rec]; [reflexivity|].
  unfold activate_events. destruct (r_serror_inject _); reflexivity.
Qed.
Lemma end_core : forall f fi v simd, core (v_rec (run_end f fi (v, simd))) = core (v_rec v).
Proof. intros f fi v []; reflexivity. Qed.
(** The system registers that the run loop changes: timers and trap controls *)
Definition loop_sys : list sysreg := [CNTHCTL_EL2; CNTP_CTL_EL0; CNTP_CVAL_EL0; CNTV_CTL_EL0; CNTV_CVAL_EL0; CPTR_EL2].
Definition same_sys (l : list sysreg) (r' r : recd) : Prop := forall q, ~ In q l -> r_sys r' q = r_sys r q.
Lemma sys_other : forall r q v x, x <> q -> r_sys (set_sysreg r q v) x = r_sys r x.
Proof.
  intros r q v x NE. unfold set_sysreg, upd_sys. cbn [r_sys set_sys]. destruct (N.eqb_spec (sysreg_id x) (sysreg_id q)) as [E|]; [|reflexivity].
  exfalso. apply NE. destruct x, q; try reflexivity; discriminate E.
Qed.
Lemma head_sys : forall tm v, same_sys [CNTHCTL_EL2] (v_rec (fst (loop_head tm v))) (v_rec v).
Proof.
  intros tm v q N. unfold loop_head. destruct (snd (check_pending_timers (v_rec v) tm)); cbn [fst v_rec v_set_rec].
  - unfold check_pending_timers. cbn [fst]. apply sys_other. intros ->. apply N. left. reflexivity.
  - unfold activate_events, check_pending_timers. cbn [fst]. destruct (r_serror_inject _); [change (r_sys (set_serror ?a _ _)) with (r_sys a)|]; apply sys_other; intros ->; apply N; left; reflexivity.
Qed.
Lemma end_sys : forall f fi v simd, same_sys loop_sys (v_rec (run_end f fi (v, simd))) (v_rec v).
Proof.
  intros f fi v simd q N. unfold run_end. cbv zeta. unfold save_realm_state. cbv zeta. cbn [fst snd v_rec]. change (r_sys (set_gic ?a _)) with (r_sys a).
  assert (K : forall s, In s loop_sys -> q <> s) by (intros s I ->; contradiction).
  rewrite !sys_other by (apply K; unfold loop_sys; cbn; auto 10). destruct simd; [|reflexivity]. apply sys_other, K. unfold loop_sys; cbn; auto 10.
Qed.
Lemma end_told : forall f fi v simd, told (v_exit (run_end f fi (v, simd))) = told (v_exit v).
Proof. intros f fi v simd. unfold run_end. cbv zeta. destruct simd; cbn [fst snd]; unfold save_realm_state; cbv zeta; cbn [fst snd v_exit]; destruct (r_pmu_enabled _); reflexivity. Qed.
Lemma head_exit : forall tm v, v_exit (fst (loop_head tm v)) = if snd (loop_head tm v) then v_exit v else ex_set_reason (v_exit v) RMI_EXIT_IRQ.
Proof. intros tm v. unfold loop_head. destruct (snd (check_pending_timers (v_rec v) tm)); reflexivity. Qed.

(** An exit the realm does not notice leaves the exit record empty *)
Lemma exit_go : forall c h gh G d ev v simd labs v1 simd', exit_out c h gh G d ev v simd labs (v1, simd', true) -> v_exit v = exit_zero -> v_exit v1 = exit_zero.
Proof.
  intros c h gh G d ev v simd labs v1 simd' H E. remember (v1, simd', true) as o eqn:Eo.
  destruct H as [| | |r' He Hr|r' x' sd go Hx He Hs|labs o Hx He Hs]; try discriminate Eo.
  - injection Eo as <- <- ->. cbn [v_exit]. rewrite E in Hs. remember true as g eqn:Eg. change (ex_set_reason exit_zero RMI_EXIT_SYNC) with exit_zero in Hs.
    destruct Hs; try discriminate Eg; reflexivity.
  - assert (K : forall o1 : vcpu * rsi, ((if snd (rsi_result o1) then fst (rsi_result o1) else keep_last ev (fst (rsi_result o1))), simd, snd (rsi_result o1)) = (v1, simd', true) ->
      ra_exit (snd o1) = false /\ (ra_abort (snd o1) = false -> v_exit v1 = v_exit (fst o1))).
    { intros [v2 s] K. unfold rsi_result in K. cbv zeta in K. cbn [fst snd] in *. destruct (ra_abort s); cbn [fst snd] in K; destruct (ra_exit s); cbn [negb] in K; try discriminate K.
      - split; [reflexivity|discriminate].
      - injection K as <- _. auto. }
    apply K in Eo. destruct Eo as [K1 K2]. destruct Hs; cbn [fst snd ret_realm ret_host exit_host s2_fault ra_exit ra_abort] in *; try discriminate K1;
      rewrite (K2 eq_refl); cbn [v_exit v_set_exit v_set_rec v_set_att]; rewrite E; reflexivity.
Qed.

Lemma run_split : forall c h gh G d ev fi tm a v simd labs out at_ sd, run_out c h gh G d ev fi tm a v simd labs (out, at_, sd) ->
  exists labs0 v1 simd' go r' n, exit_out c h gh G d ev v simd labs0 (v1, simd', go) /\ labs = labs0 ++ [LRec a (v_rec v) r' n] /\
    core r' = core (v_rec v1) /\ same_sys loop_sys r' (v_rec v1) /\ at_ = v_att v1 /\
    ((go = true /\ out = ERun (v_exit v1) /\ r' = v_rec (fst (loop_head tm v1))) \/
     (exists x, told x = told (if go then ex_set_reason (v_exit v1) RMI_EXIT_IRQ else v_exit v1) /\ out = answer (fi_wok fi) x)).
Proof.
  intros c h gh G d ev fi tm a v simd labs out at_ sd H. remember (out, at_, sd) as o eqn:Eo.
  destruct H as [labs v1 simd' l H El Hl|labs v1 simd' l v' H El Hl Ev|labs v1 simd' v' H Ev]; injection Eo as <- <- <-.
  - exists labs, v1, simd', true. eexists. eexists. split; [exact H|]. split; [reflexivity|]. assert (HS : same_sys loop_sys (v_rec (fst l)) (v_rec v1)) by (intros q N; subst l; apply head_sys; intros [<-|[]]; apply N; left; reflexivity). subst l. rewrite head_core. split; [reflexivity|]. split; [exact HS|]. split; [reflexivity|].
    left. rewrite head_exit, Hl. auto.
  - exists labs, v1, simd', true. eexists. eexists. split; [exact H|]. split; [reflexivity|]. assert (HS : same_sys loop_sys (v_rec v') (v_rec v1)) by (intros q N; subst l v'; rewrite (end_sys _ _ _ _ q N); apply head_sys; intros [<-|[]]; apply N; left; reflexivity). subst l v'. rewrite end_core, head_core. split; [reflexivity|]. split; [exact HS|]. split; [reflexivity|].
    right. eexists. split; [|reflexivity]. rewrite end_told, head_exit, Hl. reflexivity.
  - exists labs, v1, simd', false. eexists. eexists. split; [exact H|]. split; [reflexivity|]. assert (HS : same_sys loop_sys (v_rec v') (v_rec v1)) by (subst v'; apply end_sys). subst v'. rewrite end_core. split; [reflexivity|]. split; [exact HS|]. split; [reflexivity|].
    right. eexists. split; [|reflexivity]. rewrite end_told. reflexivity.
Qed.

(** ** Two invariants: the exit record of a running REC is empty, and a data abort
    with a valid syndrome is kept only for the unprotected half *)
Definition last_ok (r : recd) : Prop :=
  esr_ec (r_last_esr r) = EC_DATA_ABORT -> has (r_last_esr r) ISV_BIT = true ->
  rec_par_size r <= hpfar_fipa (r_last_hpfar r) /\ hpfar_fipa (r_last_hpfar r) < rec_ipa_size r.

Lemma core_parts : forall r r', core r' = core r -> ident r' = ident r /\ pend r' = pend r /\ r_pstate r' = r_pstate r /\ r_regs r' = r_regs r /\
  r_pc r' = r_pc r /\ r_sp_el0 r' = r_sp_el0 r /\ r_last_esr r' = r_last_esr r /\ r_last_hpfar r' = r_last_hpfar r /\ r_last_far r' = r_last_far r.
Proof.
  intros r r' E. unfold core in E.
  assert (K : forall (A B C D X Y Z T U : Type) (a a' : A) (b b' : B) (c c' : C) (d d' : D) (x x' : X) (y y' : Y) (z z' : Z) (t t' : T) (u u' : U),
    (a, b, c, d, x, y, (z, t, u)) = (a', b', c', d', x', y', (z', t', u')) -> a = a' /\ b = b' /\ c = c' /\ d = d' /\ x = x' /\ y = y' /\ z = z' /\ t = t' /\ u = u').
  { intros. injection H as -> -> -> -> -> -> -> -> ->. auto 10. }
  apply K in E. exact E.
Qed.
Lemma core_last : forall r r', core r' = core r -> last_ok r -> last_ok r'.
Proof.
  intros r r' E K. apply core_parts in E. destruct E as (E1 & E2 & E3 & E4 & E5 & E6 & E7 & E8 & E9). unfold last_ok, rec_par_size, rec_ipa_size in *.
  apply ident_parts in E1. destruct E1 as (_ & Ex & _). rewrite E7, E8, Ex. exact K.
Qed.
Lemma has_land : forall w m b, N.land m b = 0 -> has (N.land w m) b = false.
Proof. intros w m b E. unfold has. rewrite <- N.land_assoc, E, N.land_0_r. reflexivity. Qed.
Lemma isv_clear : forall w, has (N.ldiff w ISV_BIT) ISV_BIT = false.
Proof.
  intro w. unfold has. rewrite N.land_comm. replace (N.land ISV_BIT (N.ldiff w ISV_BIT)) with 0; [reflexivity|]. symmetry. apply N.bits_inj. intro n.
  rewrite N.land_spec, N.ldiff_spec, N.bits_0. destruct (N.testbit ISV_BIT n), (N.testbit w n); reflexivity.
Qed.

Lemma sync_last : forall h gh r simd esr far hpfar r' x' simd' go, sync_out h gh r exit_zero simd esr far hpfar r' x' simd' go ->
  r_ctx r' = r_ctx r /\ (go = true -> r_last_esr r' = r_last_esr r /\ r_last_hpfar r' = r_last_hpfar r) /\
  (esr_ec esr = EC_DATA_ABORT -> has (ex_esr x') ISV_BIT = true -> rec_par_size r <= hpfar_fipa hpfar /\ hpfar_fipa hpfar < rec_ipa_size r).
Proof.
  intros h gh r simd esr far hpfar r' x' simd' go H.
  assert (UN : forall r', realm_inject_undef_abort r = Some r' -> r_ctx r' = r_ctx r /\ r_last_esr r' = r_last_esr r /\ r_last_hpfar r' = r_last_hpfar r).
  { intros r0 K. unfold realm_inject_undef_abort in K. destruct (calc_vector_entry _ _ _); [|discriminate]. injection K as <-. auto. }
  assert (ID : forall r', inject_sync_idabort r esr far FSC_SEA = Some r' -> r_ctx r' = r_ctx r /\ r_last_esr r' = r_last_esr r /\ r_last_hpfar r' = r_last_hpfar r).
  { intros r0 K. unfold inject_sync_idabort in K. destruct (calc_esr_idabort _ _ _); [|discriminate]. destruct (calc_vector_entry _ _ _); [|discriminate]. injection K as <-. auto. }
  assert (SM : forall w m, N.land m ISV_BIT = 0 -> has (ex_esr (ex_set_esr exit_zero (N.land w m))) ISV_BIT = true -> False).
  { intros w m E K. cbn [ex_esr ex_set_esr] in K. rewrite has_land in K by exact E. discriminate K. }
  destruct H; cbn [ex_esr exit_zero].
  - split; [reflexivity|]. split; [discriminate|]. intros _ K. exfalso. eapply SM; [|exact K]. reflexivity.
  - split; [apply UN; assumption|]. split; [intros _; apply UN; assumption|]. discriminate.
  - split; [destruct (_ =? 31); reflexivity|]. split; [intros _; destruct (_ =? 31); auto|]. discriminate.
  - split; [reflexivity|]. split; [discriminate|]. intro X. rewrite X in H. discriminate H.
  - split; [destruct (negb _ && _); reflexivity|]. split; [intros _; destruct (negb _ && _); auto|]. discriminate.
  - split; [apply ID; assumption|]. split; [discriminate|]. intros _ K. exfalso. eapply SM; [|exact K]. reflexivity.
  - split; [reflexivity|]. split; [discriminate|]. intros _ K. exfalso. eapply SM; [|exact K]. reflexivity.
  - split; [apply ID; assumption|]. split; [intros _; apply ID; assumption|]. discriminate.
  - split; [reflexivity|]. split; [discriminate|]. intros _. unfold dabt_exit. cbv zeta.
    destruct (is_aarch32 r || addr_in_rec_par r (hpfar_fipa hpfar)) eqn:B; cbn [ex_esr ex_set_gprs ex_set_hpfar ex_set_far ex_set_esr].
    + rewrite has_land by reflexivity. discriminate.
    + intros _. apply orb_false_elim in B. destruct B as [_ B]. unfold addr_in_rec_par in B. split; [lia|assumption].
  - split; [reflexivity|]. split; [discriminate|]. intro X. rewrite X in H. discriminate H.
  - split; [reflexivity|]. split; [auto|]. discriminate.
  - split; [reflexivity|]. split; [discriminate|]. discriminate.
Qed.

Lemma exit_last : forall c h gh G d ev v simd labs v1 simd' go, exit_out c h gh G d ev v simd labs (v1, simd', go) ->
  (ev_exc ev = ExcSerror -> esr_ec (ev_esr ev) <> EC_DATA_ABORT) ->
  v_exit v = exit_zero -> last_ok (v_rec v) -> last_ok (v_rec v1).
Proof.
  intros c h gh G d ev v simd labs v1 simd' go H SE E K. remember (v1, simd', go) as o eqn:Eo.
  destruct H as [| | |r' He Hr|r' x' sd go' Hx He Hs|labs o Hx He Hs]; injection Eo as <- <- <-; try exact K.
  - intro X. exfalso. apply (SE He). exact X.
  - rewrite E in Hs. change (ex_set_reason exit_zero RMI_EXIT_SYNC) with exit_zero in Hs. apply sync_last in Hs. destruct Hs as (S1 & S2 & S3).
    destruct go'; unfold last_ok, rec_par_size, rec_ipa_size in *.
    + destruct (S2 eq_refl) as (S4 & S5). cbn [v_rec]. rewrite S1, S4, S5. exact K.
    + unfold keep_last. cbn [v_rec v_set_rec v_exit]. change (r_last_esr (set_last ?a ?b _ _)) with b. change (r_last_hpfar (set_last ?a _ ?b _)) with b.
      change (r_ctx (set_last ?a _ _ _)) with (r_ctx a). rewrite S1. intros X1 X2. destruct (has (ex_esr x') ISV_BIT) eqn:X3.
      * apply S3; auto.
      * rewrite isv_clear in X2. discriminate X2.
  - destruct (snd (rsi_result o)).
    + assert (RES : last_ok (v_rec (fst o)) -> last_ok (v_rec (fst (rsi_result o)))).
      { intro L. unfold rsi_result. cbv zeta. destruct (ra_abort (snd o)); cbn [fst v_rec]; destruct (ra_update (snd o)); exact L. }
      apply RES. destruct Hs; exact K.
    + intro X. exfalso. unfold keep_last in X. cbn [v_rec v_set_rec v_exit] in X.
      change (r_last_esr (set_last ?a ?b _ _)) with b in X. destruct (has _ _); rewrite ?ec_ldiff in X; rewrite He in X; discriminate X.
Qed.

(** ** RECs that appear *)
Lemma rec_new : forall c h m o m' rp, next c h m o m' rp -> forall a r', rec_is m' a r' -> g_state (m_gr m a) <> REC ->
  exists p rd pa x d, done o rp (KRecCreate (Some p) rd a pa) x /\ realm m rd d /\
    r' = new_rec c rec_zero d rd p (rd_rec_count d) (aux_list p (rp_num_aux p mod 2 ^ 32)).
Proof.
  intros c h m o m' rp H a r' [S2 M2] N. assert (NE : g_state (m_gr m' a) <> g_state (m_gr m a)) by congruence.
  pose proof (moved _ _ _ _ _ _ _ H NE) as MV. rewrite S2 in MV. inversion MV; subst.
  match goal with D : done _ _ _ _ |- _ => pose proof D as DD; destruct (cmd_done_eff _ _ _ _ _ _ _ _ H D) as (gh & gh' & labs & inv & M & M' & GE & K & OK & _) end.
  destruct K as [(NO & _)|(_ & _ & q & d & rc & E & R & Sn & _ & _ & _ & IX & _ & -> & ->)]; [contradiction|]. subst p.
  inversion GE as [|? ? ? ? gh1 G1 V1 ? ? ? ? X1 X2]; subst. inversion X2 as [? ? ? ? ? HG HV2|]; subst. inversion X1; subst.
  do 5 eexists. split; [exact DD|]. split; [exact R|].
  rewrite HG in M2. match goal with E : G1 a = _ |- _ => rewrite E in M2 end. cbn [g_mem] in M2. injection M2 as <-. reflexivity.
Qed.

(** ** The entry of a REC *)
Lemma enter_step : forall c h m p a ra e fi tm m' rp, next c h m (OEnter p a ra (Some e) fi tm) m' rp -> exists gh, MInv c gh m /\
  forall r r', rec_is m a r -> rec_is m' a r' ->
  (r' = r /\ (forall x, rp <> Exited RMI_SUCCESS x) /\ rp <> Entered) \/
  (r' = set_gic r (gic_copy_state_from_rec_entry (h_gic h) (r_gic r) e) /\ entry_rec (h_gic h) r e = None /\ rp = Exited RMI_ERROR_REC None) \/
  (exists d r6, realm m (r_g_rd r) d /\ rd_state d = REALM_ACTIVE /\ r_runnable r = true /\ r_psci_pending r = false /\ entry_rec (h_gic h) r e = Some r6 /\
     ((exists l, (0 <= l)%Z /\ r' = r6 /\ hc_out gh (m_gr m) (r_g_rd r) (r_ctx r) r6 e [] (inr l) /\ 
         exists x, x = fault_exit r6 exit_zero l /\ rp = if fi_wok fi then Exited RMI_SUCCESS (Some x) else Exited RMI_ERROR_INPUT None) \/
      (exists r7 hl, hc_out gh (m_gr m) (r_g_rd r) (r_ctx r) r6 e hl (inl r7) /\ core r' = core (start_rec r7 e) /\ same_sys loop_sys r' (start_rec r7 e) /\
         (rp = Entered \/ exists x, told x = told (ex_set_reason exit_zero RMI_EXIT_IRQ) /\ rp = if fi_wok fi then Exited RMI_SUCCESS (Some x) else Exited RMI_ERROR_INPUT None)))).
Proof.
  intros c h m p a ra e fi tm m' rp H. destruct (next_good _ _ _ _ _ _ H) as (gh & gh' & labs & M & M' & GE & OE). exists gh. split; [exact M|].
  intros r r' [S1 M1] [S2 M2]. cbn [op_eff] in OE. destruct OE as (CP & -> & out & EO & _ & _ & RP).
  pose proof (mv_inv _ _ _ M) as I. 
  assert (L : forall pre r0 r1 n, labs = pre ++ [LRec a r0 r1 n] -> r' = r1).
  { intros pre r0 r1 n ->. rewrite (geffs_last_rec _ _ _ _ _ _ _ _ _ _ _ _ GE I) in M2. cbn [g_mem] in M2. congruence. }
  assert (AN : forall x, (match answer (fi_wok fi) x with EReturn ret x0 => rp = Exited ret x0 /\ m_cpu m' = m_cpu m | ERun x0 => rp = Entered /\ m_cpu m' = upd (m_cpu m) p (Some (mkRun a x0 false)) end) ->
     rp = if fi_wok fi then Exited RMI_SUCCESS (Some x) else Exited RMI_ERROR_INPUT None).
  { intros x K. unfold answer in K. destruct (fi_wok fi); apply K. }
  inversion EO; subst.
  - left. destruct RP as [-> _]. inversion GE as [? ? ? ? ? HG HV|]; subst. rewrite HG in M2. split; [congruence|]. split; [|discriminate]. intros x E. injection E as -> _.
    match goal with K : enter_bad _ _ _ _ _ _ _ |- _ => destruct K as [(K & _)|[(K & _)|(r0 & d & _ & _ & [(K & _)|[(K & _)|(K & _)]])]]; discriminate K end.
  - right. left. apply RP || idtac. match goal with E : Some _ = Some _ |- _ => injection E as <- end.
    match goal with R : is_rec _ _ ?q |- _ => assert (q = r) by (destruct R as [_ R]; congruence); subst q end.
    destruct RP as [RP _]. split; [eapply (L []); reflexivity|]. auto.
  - right. right. match goal with E : Some _ = Some _ |- _ => injection E as <- end.
    match goal with R : is_rec _ _ ?q |- _ => assert (q = r) by (destruct R as [_ R]; congruence); subst q end.
    apply AN in RP. exists d, r6. repeat (split; [assumption|]). left. exists l. split; [assumption|]. split; [eapply (L []); reflexivity|]. split; [assumption|].
    eexists. split; [reflexivity|exact RP].
  - right. right. match goal with E : Some _ = Some _ |- _ => injection E as <- end.
    match goal with R : is_rec _ _ ?q |- _ => assert (q = r) by (destruct R as [_ R]; congruence); subst q end.
    exists d, r6. repeat (split; [assumption|]). right. exists r7, hl. split; [assumption|].
    rewrite (L (LRec a r _ 1 :: hl) _ _ _ eq_refl), head_core. split; [reflexivity|]. split; [intros q N; rewrite head_sys; [reflexivity|intros [<-|[]]; apply N; left; reflexivity]|]. left. apply RP.
  - right. right. match goal with E : Some _ = Some _ |- _ => injection E as <- end.
    match goal with R : is_rec _ _ ?q |- _ => assert (q = r) by (destruct R as [_ R]; congruence); subst q end.
    apply AN in RP. exists d, r6. repeat (split; [assumption|]). right. exists r7, hl. split; [assumption|].
    rewrite (L (LRec a r _ 1 :: hl) _ _ _ eq_refl), end_core, head_core. split; [reflexivity|]. split; [intros q N; rewrite (end_sys _ _ _ _ q N), head_sys; [reflexivity|intros [<-|[]]; apply N; left; reflexivity]|]. right.
    eexists. split; [|exact RP]. rewrite end_told, head_exit. match goal with E : snd _ = false |- _ => rewrite E end. reflexivity.
Qed.

(** ** The invariants *)
Lemma entry_last : forall f r e r6, entry_rec f r e = Some r6 -> r_last_esr r6 = r_last_esr r /\ r_last_hpfar r6 = r_last_hpfar r /\ r_last_far r6 = r_last_far r /\ r_ctx r6 = r_ctx r.
Proof.
  intros f r e r6 H. unfold entry_rec in H. cbv zeta in H. set (r1 := set_gic r _) in *.
  destruct (complete_sea_insertion r1 e) as [[r2|]|] eqn:H2; try discriminate.
  assert (K2 : r_last_esr r2 = r_last_esr r /\ r_last_hpfar r2 = r_last_hpfar r /\ r_last_far r2 = r_last_far r /\ r_ctx r2 = r_ctx r).
  { unfold complete_sea_insertion in H2. destruct (negb (has (en_flags e) FLAG_INJECT_SEA)); [injection H2 as <-; auto|].
    destruct (negb _); [discriminate|]. destruct (addr_in_rec_par _ _); [discriminate|].
    destruct (inject_sync_idabort r1 (r_last_esr r1) (r_last_far r1) FSC_SEA) eqn:J; [|discriminate]. injection H2 as <-. unfold inject_sync_idabort in J.
    destruct (calc_esr_idabort _ _ _); [|discriminate]. destruct (calc_vector_entry _ _ _); [|discriminate]. injection J as <-. auto. }
  destruct (complete_mmio_emulation r2 e) as [r3|] eqn:H3; try discriminate.
  assert (K3 : r_last_esr r3 = r_last_esr r2 /\ r_last_hpfar r3 = r_last_hpfar r2 /\ r_last_far r3 = r_last_far r2 /\ r_ctx r3 = r_ctx r2).
  { unfold complete_mmio_emulation in H3. cbv zeta in H3. destruct (negb _); [injection H3 as <-; auto|]. destruct (has _ FLAG_INJECT_SEA); [injection H3 as <-; auto|].
    destruct (_ || _); [discriminate|]. injection H3 as <-. destruct (_ && _); auto. }
  injection H as <-. destruct K2 as (A1 & A2 & A3 & A4), K3 as (B1 & B2 & B3 & B4). rewrite <- A1, <- A2, <- A3, <- A4, <- B1, <- B2, <- B3, <- B4.
  unfold complete_sysreg_emulation, complete_set_ripas. repeat match goal with |- context [if ?b then _ else _] => destruct b end; auto.
Qed.
Lemma hc_last : forall gh G rd x r6 e labs r7, hc_out gh G rd x r6 e labs (inl r7) ->
  r_last_esr r7 = r_last_esr r6 /\ r_last_hpfar r7 = r_last_hpfar r6 /\ r_last_far r7 = r_last_far r6 /\ r_ctx r7 = r_ctx r6.
Proof.
  intros gh G rd x r6 e labs r7 [(_ & _ & E)|[(_ & l & b & pa & g & f & _ & _ & _ & _ & _ & E)|(_ & _ & l & b & z & _ & _ & _ & E)]].
  - injection E as ->. auto.
  - injection E as ->. auto.
  - destruct (e_ripas z); try discriminate E. injection E as ->. auto.
Qed.

(** The caller and the target of a PSCI request *)
Definition psci_start (rc rt : recd) : recd :=
  set_runnable (set_pc (set_reg (psci_reset_rec rt (r_sys rc SCTLR_EL1)) 0 (r_regs rc 3)) (r_regs rc 2)) true.
Lemma psci_cases : forall rc rt u st x rc' rt', psci_complete_request rc rt u st = Some (x, rc', rt') ->
  (x = RMI_ERROR_INPUT /\ rc' = rc /\ rt' = rt) \/
  (r_psci_pending rc = true /\ r_g_rd rc = r_g_rd rt /\ mpidr_to_rec_idx (r_regs rc 1) = r_idx rt /\ exists v, rc' = finish_psci rc v /\
    ((In (r_regs rc 0) [SMC32_PSCI_CPU_ON; SMC64_PSCI_CPU_ON] /\
      (((u = true \/ r_runnable rt = true) /\ rt' = rt /\ v = PSCI_RETURN_ALREADY_ON /\ (st = PSCI_RETURN_SUCCESS /\ x = RMI_SUCCESS \/ st = PSCI_RETURN_DENIED /\ x = RMI_ERROR_INPUT)) \/
       (u = false /\ r_runnable rt = false /\ st = PSCI_RETURN_DENIED /\ rt' = rt /\ v = PSCI_RETURN_DENIED /\ x = RMI_SUCCESS) \/
       (u = false /\ r_runnable rt = false /\ st = PSCI_RETURN_SUCCESS /\ rt' = psci_start rc rt /\ v = PSCI_RETURN_SUCCESS /\ x = RMI_SUCCESS))) \/
     (In (r_regs rc 0) [SMC32_PSCI_AFFINITY_INFO; SMC64_PSCI_AFFINITY_INFO] /\ st = PSCI_RETURN_SUCCESS /\ rt' = rt /\ x = RMI_SUCCESS /\
      v = if u || r_runnable rt then PSCI_AFFINITY_INFO_ON else PSCI_AFFINITY_INFO_OFF))).
Proof.
  intros rc rt u st x rc' rt' H. unfold psci_complete_request in H. cbv zeta in H.
  assert (T : forall (A B C : Type) (a a' : A) (b b' : B) (q q' : C), Some (a, b, q) = Some (a', b', q') -> a' = a /\ b' = b /\ q' = q) by (intros; split; [congruence|split; congruence]).
  destruct (r_psci_pending rc); cbn [negb] in H; [|apply T in H; left; exact H].
  destruct (N.eqb_spec (r_g_rd rc) (r_g_rd rt)) as [Eg|]; cbn [negb] in H; [|apply T in H; left; exact H].
  destruct (N.eqb_spec (mpidr_to_rec_idx (r_regs rc 1)) (r_idx rt)) as [Ei|]; cbn [negb] in H; [|apply T in H; left; exact H].
  destruct ((r_regs rc 0 =? SMC32_PSCI_CPU_ON) || (r_regs rc 0 =? SMC64_PSCI_CPU_ON)) eqn:B1.
  - assert (I0 : In (r_regs rc 0) [SMC32_PSCI_CPU_ON; SMC64_PSCI_CPU_ON]).
    { apply orb_prop in B1. destruct B1 as [B1|B1]; apply N.eqb_eq in B1; rewrite B1; [left|right; left]; reflexivity. }
    destruct (negb (st =? PSCI_RETURN_SUCCESS) && negb (st =? PSCI_RETURN_DENIED)) eqn:B2; [apply T in H; left; exact H|].
    right. split; [reflexivity|]. split; [exact Eg|]. split; [exact Ei|].
    unfold complete_psci_cpu_on in H. destruct (u || r_runnable rt) eqn:Bu; cbn [fst snd] in H.
    + change (PSCI_RETURN_ALREADY_ON =? PSCI_RETURN_ALREADY_ON) with true in H. rewrite andb_true_r in H. apply T in H. destruct H as (-> & -> & ->).
      eexists. split; [reflexivity|]. left. split; [exact I0|]. left. split; [apply orb_prop; exact Bu|]. split; [reflexivity|]. split; [reflexivity|].
      destruct (N.eqb_spec st PSCI_RETURN_DENIED); [right; auto|left]. cbn [negb] in B2. rewrite andb_true_r in B2. apply negb_false_iff, N.eqb_eq in B2. auto.
    + apply orb_false_elim in Bu. destruct Bu as [-> Bu]. destruct (N.eqb_spec st PSCI_RETURN_DENIED) as [->|nd]; cbn [fst snd] in H.
      * change (PSCI_RETURN_DENIED =? PSCI_RETURN_ALREADY_ON) with false in H. cbn [andb] in H. apply T in H. destruct H as (-> & -> & ->).
        eexists. split; [reflexivity|]. left. split; [exact I0|]. right. left. auto 8.
      * cbn [andb negb] in H, B2. rewrite andb_true_r in B2. apply negb_false_iff, N.eqb_eq in B2. apply T in H. destruct H as (-> & -> & ->).
        eexists. split; [reflexivity|]. left. split; [exact I0|]. right. right. auto 8.
  - destruct ((r_regs rc 0 =? SMC32_PSCI_AFFINITY_INFO) || (r_regs rc 0 =? SMC64_PSCI_AFFINITY_INFO)) eqn:B2; [|discriminate H].
    assert (I0 : In (r_regs rc 0) [SMC32_PSCI_AFFINITY_INFO; SMC64_PSCI_AFFINITY_INFO]).
    { apply orb_prop in B2. destruct B2 as [B2|B2]; apply N.eqb_eq in B2; rewrite B2; [left|right; left]; reflexivity. }
    destruct (N.eqb_spec st PSCI_RETURN_SUCCESS) as [->|]; cbn [negb] in H; [|apply T in H; left; exact H]. apply T in H. destruct H as (-> & -> & ->).
    right. split; [reflexivity|]. split; [exact Eg|]. split; [exact Ei|]. eexists. split; [reflexivity|]. right. auto 8.
Qed.
Lemma psci_last : forall rc rt b st x rc' rt', psci_complete_request rc rt b st = Some (x, rc', rt') ->
  (r_last_esr rc' = r_last_esr rc /\ r_last_hpfar rc' = r_last_hpfar rc /\ r_last_far rc' = r_last_far rc /\ r_ctx rc' = r_ctx rc /\ r_set_ripas rc' = r_set_ripas rc) /\
  (r_last_esr rt' = r_last_esr rt /\ r_last_hpfar rt' = r_last_hpfar rt /\ r_last_far rt' = r_last_far rt /\ r_ctx rt' = r_ctx rt /\ r_set_ripas rt' = r_set_ripas rt).
Proof.
  intros rc rt b st x rc' rt' H. apply psci_cases in H. destruct H as [(_ & -> & ->)|(_ & _ & _ & v & -> & H)]; [auto 12|].
  split; [auto 8|]. destruct H as [(_ & [(_ & -> & _)|[(_ & _ & _ & -> & _)|(_ & _ & _ & -> & _)]])|(_ & _ & -> & _)]; auto 8.
Qed.

Definition exits_fresh (m : mstate) : Prop := forall p ru, m_cpu m p = Some ru -> ru_exit ru = exit_zero.
Definition all_last (m : mstate) : Prop := forall a r, rec_is m a r -> last_ok r.
Lemma rec_inv : forall c h m, reachable c h m -> exits_fresh m /\ all_last m.
Proof.
  intros c h. apply reach_ind.
  { intros C mem. split; [intros p ru X; discriminate X|]. intros a r [S X]. discriminate X. }
  intros m o m' rp H [F A]. pose proof H as (_ & OO & _).
  assert (FR : exits_fresh m').
  { destruct (next_good _ _ _ _ _ _ H) as (gh & gh' & labs & M & M' & GE & OE).
    destruct o; cbn [op_eff] in OE; cbv zeta in OE.
    - destruct OE as (_ & x & inv & _ & _ & _ & E & _). unfold exits_fresh. rewrite E. exact F.
    - destruct OE as (CP & _ & out & EO & _ & _ & RP). destruct out as [ret x|x]; destruct RP as [_ E]; unfold exits_fresh; rewrite E; [exact F|].
      intros q ru. unfold upd. destruct (N.eqb_spec q p); [|apply F]. intro X. injection X as <-. cbn [ru_exit]. inversion EO; subst.
      + exfalso. match goal with K : answer _ _ = _ |- _ => unfold answer in K; destruct (fi_wok fi); discriminate K end.
      + rewrite head_exit. match goal with K : snd _ = true |- _ => rewrite K end. reflexivity.
      + exfalso. match goal with K : answer _ _ = _ |- _ => unfold answer in K; destruct (fi_wok fi); discriminate K end.
    - destruct OE as (-> & ru & r & d & out & at_ & simd & CP & RR & R & RO & _ & _ & RP). apply run_split in RO.
      destruct RO as (l0 & v1 & sd & go & r' & n & EO & _ & _ & _ & _ & K).
      destruct out as [ret x|x]; destruct RP as [_ E]; unfold exits_fresh; rewrite E; intros q ru'; unfold upd; (destruct (N.eqb_spec q p); [|apply F]); intro X; [discriminate X|].
      injection X as <-. cbn [ru_exit]. destruct K as [(-> & K & _)|(y & _ & K)]; [|unfold answer in K; destruct (fi_wok fi); discriminate K].
      injection K as ->. eapply exit_go; [exact EO|]. cbn [v_exit]. apply (F _ _ CP).
    - destruct OE as (_ & _ & (_ & E & _) & _). unfold exits_fresh. rewrite E. exact F.
    - destruct OE as (_ & _ & (_ & E & _) & _). unfold exits_fresh. rewrite E. exact F.
    - destruct OE as (_ & _ & (_ & E & _) & _). unfold exits_fresh. rewrite E. exact F.
    - destruct OE as (_ & _ & _ & E & _). unfold exits_fresh. rewrite E. exact F.
    - destruct OE as (_ & _ & (_ & E & _) & _). unfold exits_fresh. rewrite E. exact F.
    - destruct OE as (_ & _ & (_ & E & _) & _). unfold exits_fresh. rewrite E. exact F. }
  split; [exact FR|]. intros a r' R'.
  assert (D : {g_state (m_gr m a) = REC} + {g_state (m_gr m a) <> REC}) by decide equality.
  destruct D as [S|S].
  2:{ destruct (rec_new _ _ _ _ _ _ H _ _ R' S) as (p & rd & pa & x & d & _ & _ & ->). intro X. discriminate X. }
  destruct (reach_minv _ _ _ (proj1 H)) as (gh0 & M0). destruct (i_rec _ _ _ _ (mv_inv _ _ _ M0) _ S) as (_ & r & d0 & Mr & _).
  assert (R : rec_is m a r) by (split; assumption).
  destruct (rec_step _ _ _ _ _ _ H) as (gh & M & K). destruct (K _ _ _ R R') as [->|C]; [apply (A _ _ R)|]. pose proof (A _ _ R) as L.
  assert (KEEP : forall q q', r_last_esr q' = r_last_esr q /\ r_last_hpfar q' = r_last_hpfar q /\ r_last_far q' = r_last_far q /\ r_ctx q' = r_ctx q -> last_ok q -> last_ok q').
  { intros q q' (E1 & E2 & _ & E4) LQ. unfold last_ok, rec_par_size, rec_ipa_size in *. rewrite E1, E2, E4. exact LQ. }
  destruct C as [base top x D q|p target status x rt rc' rt' -> -> NE RT RF PC|p calling status x rc rc' rt' -> -> NE RT RF PC
    |p ra e fi tm labs out n r0 r1 -> EO CP RP|p ev fi tm ru d labs n out at_ simd r1 -> CP EA RD1 RO RP|p regs sp pc pstate sys -> EX|p ipa rt v -> EX]; try exact L.
  - apply psci_last in PC. destruct PC as ((P1 & P2 & P3 & P4 & _) & _). eapply KEEP; [|exact L]. auto.
  - apply psci_last in PC. destruct PC as (_ & (P1 & P2 & P3 & P4 & _)). eapply KEEP; [|exact L]. auto.
  - clear FR K M EO RP CP. destruct (enter_step _ _ _ _ _ _ _ _ _ _ _ H) as (gh1 & _ & K). destruct (K _ _ R R') as [(-> & _)|[(-> & _)|(d & r6 & _ & _ & _ & _ & ER & Q)]]; [exact L|exact L|].
    apply entry_last in ER. destruct Q as [(l & _ & -> & _)|(r7 & hl & HC & E & _)]; [eapply KEEP; [exact ER|exact L]|].
    eapply core_last; [exact E|]. intro X. discriminate X.
  - apply run_split in RO. destruct RO as (l0 & v1 & sd & go & r2 & n2 & EO & E & E2 & _). apply app_inj_tail in E. destruct E as [_ E]. injection E as <- _.
    eapply core_last; [exact E2|]. eapply exit_last; [exact EO| |cbn [v_exit]; apply (F _ _ CP)|exact L].
    intros X Y. destruct OO as [_ OO]. specialize (OO X). apply N.eqb_eq in Y. change EC_DATA_ABORT with (EC 36) in Y. rewrite esr_ec_field in Y by reflexivity.
    apply N.eqb_eq in Y. unfold field in Y. unfold bits in OO. change (2 ^ (31 - 26 + 1)) with (2 ^ 6) in OO. rewrite OO in Y. discriminate Y.
Qed.
