(** RMI_REC_ENTER in machines that agree. *)
From Coq Require Import NArith ZArith List Bool Lia ZifyBool ZifyN.
From Verif Require Import Bits S2tte S2tteFacts State Granule Wp RecFields Measure RmiRtt RmiRealm Psci RmiRec Gic Esr Rsi RecRun
  Arch ArchFacts Mmu Machine Spec SpecStep SpecAgree SpecAgree2 Inv InvTree Effects CmdLib CmdRec CmdRsi CmdRsi2 CmdRun CmdRun2
  InvStep InvStep2 InvStep3 Frames MInv MStep View Own Step Step5 Step7 NiFacts NiEnter.
Import ListNotations.
Local Open Scope N_scope.

Lemma W_start : forall r r' e, W r r' -> W (start_rec r e) (start_rec r' e).
Proof.
  intros r r' e H. pose proof (W_parts _ _ H) as (H1 & H2 & H3 & H4 & H5 & H6 & H7 & H8 & H9). destruct H as [P _]. split; [exact P|].
  apply mk_told; try assumption; try reflexivity. apply (public_rec _ _ P).
Qed.
Lemma W_cnthctl : forall r r' v v', W r r' -> W (set_sysreg r CNTHCTL_EL2 v) (set_sysreg r' CNTHCTL_EL2 v').
Proof. intros r r' v v' H. exact H. Qed.
Lemma head_same : forall tm r r' x a a', W r r' ->
  let l := loop_head tm (mkV r x a) in let l' := loop_head tm (mkV r' x a') in
  snd l = snd l' /\ W (v_rec (fst l)) (v_rec (fst l')) /\ v_exit (fst l) = v_exit (fst l').
Proof.
  intros tm r r' x a a' H l l'. pose proof (W_parts _ _ H) as (_ & _ & _ & _ & H5 & H6 & _). subst l l'. unfold loop_head. cbv zeta. cbn [v_rec v_exit v_att].
  assert (E : snd (check_pending_timers r tm) = snd (check_pending_timers r' tm)). { unfold check_pending_timers. cbn [snd]. rewrite H5, H6. reflexivity. }
  rewrite <- E. destruct (snd (check_pending_timers r tm)); cbn [fst snd v_rec v_exit v_set_rec].
  - split; [reflexivity|]. split; [|reflexivity]. exact H.
  - split; [reflexivity|]. split; [|reflexivity].
    assert (AC : forall r1 r1', W r1 r1' -> W (activate_events r1) (activate_events r1')).
    { intros r1 r1' K. unfold activate_events. destruct (r_serror_inject r1), (r_serror_inject r1'); exact K. }
    apply AC. exact H.
Qed.
Lemma end_same : forall f fi r r' x a a', W r r' ->
  W (v_rec (run_end f fi (mkV r x a, false))) (v_rec (run_end f fi (mkV r' x a', false))) /\
  exit_same (v_exit (run_end f fi (mkV r x a, false))) (v_exit (run_end f fi (mkV r' x a', false))).
Proof.
  intros f fi r r' x a a' H. pose proof (W_parts _ _ H) as (H1 & H2 & H3 & H4 & H5 & H6 & H7 & H8 & H9). destruct H as [P _].
  pose proof (public_rec _ _ P) as (_ & _ & _ & _ & _ & _ & _ & P3 & P4).
  unfold run_end. cbv zeta. unfold save_realm_state. cbv zeta. cbn [fst snd v_rec v_exit v_att]. split.
  - split; [exact P|]. apply mk_told; try assumption; try reflexivity. cbn [set_gic set_sysreg set_sys r_gic gic_save_state gic_hcr]. rewrite H4. reflexivity.
  - rewrite <- P4. unfold report_timer_state. rewrite <- H7, <- H8. 
    assert (GI : forall x1 s s', gic_hcr s = gic_hcr s' -> gic_misr s = gic_misr s' -> gic_vmcr s = gic_vmcr s' -> (forall i, i <= gf_nr_lrs f -> gic_lr s i = gic_lr s' i) ->
       exit_same (gic_copy_state_to_rec_exit f s x1) (gic_copy_state_to_rec_exit f s' x1)).
    { intros x1 s s' Q1 Q2 Q3 Q4. unfold gic_copy_state_to_rec_exit, exit_same. cbn [ex_set_gic ex_reason ex_esr ex_far ex_hpfar ex_gprs ex_gicv3_hcr ex_gicv3_misr ex_gicv3_vmcr ex_gicv3_lrs
        ex_cntp_ctl ex_cntp_cval ex_cntv_ctl ex_cntv_cval ex_ripas_base ex_ripas_top ex_ripas_value ex_imm ex_pmu_ovf]. rewrite Q1, Q2, Q3.
      repeat (split; [try reflexivity|]); [|reflexivity]. intros i. destruct (i <=? gf_nr_lrs f) eqn:Ei; [apply Q4; apply N.leb_le, Ei|reflexivity]. }
    apply GI; cbn [set_gic set_sysreg set_sys r_gic gic_save_state gic_hcr gic_misr gic_vmcr gic_lr]; try reflexivity.
    + rewrite H4. reflexivity.
    + intros i Hi. apply N.leb_le in Hi. rewrite Hi. reflexivity.
Qed.

Lemma exit_same_refl : forall x, exit_same x x.
Proof. intros x. unfold exit_same. repeat split. Qed.

(** The rest of the machine follows from the invariant *)
Lemma agree_of : forall c gh m gh' m', MInv c gh m -> MInv c gh' m' -> (forall v, m_vmids m v = m_vmids m' v) ->
  (forall p, option_map ru_rec (m_cpu m p) = option_map ru_rec (m_cpu m' p)) -> (forall g, granule_agree (m_gr m g) (m_gr m' g)) -> agree m m'.
Proof.
  intros c gh m gh' m' M M' V C A. split; [|split; [|split; [exact V|split; [exact C|exact A]]]].
  - intros g. rewrite (mv_locks _ _ _ M), (mv_locks _ _ _ M'). reflexivity.
  - intros p x. rewrite (mv_slots _ _ _ M), (mv_slots _ _ _ M'). specialize (C p). destruct (m_cpu m p), (m_cpu m' p); try discriminate C; reflexivity.
Qed.

Lemma rest_used : forall c gh m a, MInv c gh m -> g_ref (m_gr m a) = 0 -> rests m a.
Proof. intros c gh m a M R p E. destruct (mv_run _ _ _ M p a E) as (r & _ & X & _). congruence. Qed.

Lemma answer_same : forall w x x', exit_same x x' -> forall r r', (answer w x = EReturn (fst r) (snd r)) -> (answer w x' = EReturn (fst r') (snd r')) ->
  reply_same (Exited (fst r) (snd r)) (Exited (fst r') (snd r')).
Proof. intros [] x x' H [r y] [r' y'] E E'; cbn [answer fst snd] in *; injection E as <- <-; injection E' as <- <-; [split; auto|reflexivity]. Qed.

Definition plain_lab (l : label) : Prop := match l with LRec _ _ _ _ | LFree _ _ => True | _ => False end.
Lemma plain_vmids : forall c gh G V labs gh' G' V', geffs c gh G V labs gh' G' V' -> Forall plain_lab labs -> forall v, V' v = V v.
Proof.
  intros c gh G V labs gh' G' V' GE. induction GE as [gh G V G' V' HG HV|gh G V lab gh1 G1 V1 labs gh' G' V' H1 H2 IH]; intros K; [exact HV|].
  inversion K as [|? ? L1 L2]; subst. intros v. rewrite (IH L2 v). clear - H1 L1.
  destruct lab; try contradiction; inversion H1; subst; solve [reflexivity | match goal with H : forall v, _ |- _ => apply H end].
Qed.
(** What changes of the granules *)
Lemma enter_frame : forall c h fi tm gh G V G' V' a ra en at_ labs out, Inv c gh G V -> ent_out c h fi tm gh G a ra en at_ labs out -> geffs c gh G V labs gh G' V' ->
  (forall v, V' v = V v) /\ forall b, b <> a -> g_state (G b) = REC \/ g_state (G' b) = REC -> G' b = G b.
Proof.
  intros c h fi tm gh G V G' V' a ra en at_ labs out I EO GE.
  assert (K : only_rec a labs /\ Forall plain_lab labs).
  { assert (HC : forall rd x r6 e hl o, hc_out gh G rd x r6 e hl o -> only_rec a hl /\ Forall plain_lab hl).
    { intros rd x r6 e hl o H. split; [apply (hc_labels _ _ _ _ _ _ _ _ a H)|]. destruct H as [(_ & -> & _)|[(_ & l & b & pa & g & f & _ & _ & _ & _ & -> & _)|(_ & -> & _)]]; repeat constructor. }
    assert (L1 : forall r r' n, rec_lab (LRec a r r' n) = false \/ exists r0 r0' n0, LRec a r r' n = LRec a r0 r0' n0) by (intros; right; eauto).
    destruct EO as [| | |? ? ? ? ? ? ? ? ? ? ? ? ? ? ? ? ? H|? ? ? ? ? ? ? ? ? ? ? ? ? ? ? ? ? ? H].
    - split; constructor.
    - split; apply Forall_cons; solve [apply L1|exact Logic.I|constructor].
    - split; apply Forall_cons; solve [apply L1|exact Logic.I|constructor].
    - apply HC in H. destruct H. split; (constructor; [first [apply L1|exact Logic.I]|]); (apply Forall_app; split; [assumption|]); apply Forall_cons; solve [apply L1|exact Logic.I|constructor].
    - apply HC in H. destruct H. split; (constructor; [first [apply L1|exact Logic.I]|]); (apply Forall_app; split; [assumption|]); apply Forall_cons; solve [apply L1|exact Logic.I|constructor]. }
  destruct K as [K1 K2]. split.
  - eapply plain_vmids; eassumption.
  - intros b nb Hb. eapply only_rec_frame; eassumption.
Qed.

Lemma enter_ret : forall c h gh m p a ra en fi tm m1 rp code, MInv c gh m -> enter_code c h (m_gr m) a ra en = Some code ->
  step c h m (OEnter p a ra en fi tm) = RDone m1 rp -> rp = Exited code None /\ (forall z, m_gr m1 z = m_gr m z) /\ m_cpu m1 = m_cpu m.
Proof.
  intros c h gh m p a ra en fi tm m1 rp code M EC ST. cbn [step] in ST. destruct (m_cpu m p) eqn:Ep; [discriminate|].
  pose proof (wp_enter_code c gh (m_gr m) (m_vmids m) (mv_inv _ _ _ M) (m_locks m) (m_slots m p) (m_tlb m) (mv_locks _ _ _ M) (idle_slots _ _ _ M p Ep) h fi tm a ra en (m_att m a) code EC) as K.
  unfold cpu_state in ST. unfold wp in K.
  destruct (run (smc_rec_enter c h fi tm a ra en (m_att m a)) (mkS (m_locks m) (m_slots m p) (m_gr m) (m_vmids m) (m_tlb m))) as [out s| |] eqn:RU; try discriminate.
  destruct K as [-> K]. injection ST as <- <-. split; [reflexivity|]. split; [exact K|reflexivity].
Qed.

(** What RMI_REC_ENTER does when it does not fail at once *)
Lemma enter_cases : forall c h fi tm gh G V G' a ra en at_ at' labs labs' out out',
  Inv c gh G V -> (forall g, granule_agree (G g) (G' g)) ->
  (forall r r', is_rec G a r -> is_rec G' a r' -> g_ref (G a) = 0 -> W r r' /\ pend_ok r /\ pend_ok r') ->
  enter_code c h G a ra en = None ->
  ent_out c h fi tm gh G a ra en at_ labs out -> ent_out c h fi tm gh G' a ra en at' labs' out' ->
  Forall2 lab_same labs labs' /\
  (exists pre r0 rf n pre' r0' rf', labs = pre ++ [LRec a r0 rf n] /\ labs' = pre' ++ [LRec a r0' rf' n] /\ W rf rf') /\
  match out, out' with ERun _, ERun _ => True | EReturn ret x, EReturn ret' x' => reply_same (Exited ret x) (Exited ret' x') | _, _ => False end.
Proof.
  intros c h fi tm gh G V G' a ra en at_ at' labs labs' out out' I A WW EC EO EO'.
  assert (EC' : enter_code c h G' a ra en = None) by (rewrite <- (code_agree _ _ _ _ _ _ _ _ _ I A); exact EC).
  assert (ANS : forall w x x', exit_same x x' -> match answer w x, answer w x' with ERun _, ERun _ => True | EReturn ret x, EReturn ret' x' => reply_same (Exited ret x) (Exited ret' x') | _, _ => False end).
  { intros [] x x' H; cbn [answer]; [split; auto|reflexivity]. }
  assert (TW : forall r r' e, W r r' -> W (set_gic r (gic_copy_state_from_rec_entry (h_gic h) (r_gic r) e)) (set_gic r' (gic_copy_state_from_rec_entry (h_gic h) (r_gic r') e))).
  { intros r r' e H. pose proof (W_parts _ _ H) as (H1 & H2 & H3 & H4 & H5 & H6 & H7 & H8 & H9). destruct H as [P _]. split; [exact P|].
    apply mk_told; try assumption; [|apply (public_rec _ _ P)]. cbn [set_gic r_gic gic_copy_state_from_rec_entry gic_hcr]. rewrite H4. reflexivity. }
  assert (PS : forall r6 r7 e tm0 at0 x0, r_psci_pending r7 = r_psci_pending r6 -> r_psci_pending r6 = false -> r_psci_pending (v_rec (fst (loop_head tm0 (mkV (start_rec r7 e) x0 at0)))) = false).
  { intros r6 r7 e tm0 at0 x0 E1 E2. destruct (head_keeps tm0 (mkV (start_rec r7 e) x0 at0)) as (_ & K & _). cbv zeta in K. unfold pend in K. injection K as _ _ K _. rewrite K. cbn [v_rec].
    change (r_psci_pending (start_rec r7 e)) with (r_psci_pending r7). congruence. }
  destruct EO as [code HB|r d e He R Rf Rd St Ru Ps Gv En|r d e r6 l He R Rf Rd St Ru Ps Gv En HC Hl
                 |r r1 d e r6 hl r7 l He R Rf Rd St Ru Ps Gv En HC Er1 El Sl|r r1 d e r6 hl r7 l v' He R Rf Rd St Ru Ps Gv En HC Er1 El Sl Ev].
  1: exfalso; exact (bad_code _ _ _ _ _ _ _ HB EC).
  all: destruct EO' as [code' HB'|r' d' e' He' R' Rf' Rd' St' Ru' Ps' Gv' En'|r' d' e' r6' l' He' R' Rf' Rd' St' Ru' Ps' Gv' En' HC' Hl'
                 |r' r1' d' e' r6' hl' r7' l' He' R' Rf' Rd' St' Ru' Ps' Gv' En' HC' Er1' El' Sl'|r' r1' d' e' r6' hl' r7' l' v0' He' R' Rf' Rd' St' Ru' Ps' Gv' En' HC' Er1' El' Sl' Ev'].
  all: try (exfalso; exact (bad_code _ _ _ _ _ _ _ HB' EC')).
  all: rewrite He in He'; apply some_inj in He'; subst e'.
  all: destruct (WW _ _ R R' Rf) as (H & PO & PO'); pose proof (entry_same (h_gic h) r r' e H PO PO') as ES; rewrite En, En' in ES; try contradiction.
  all: pose proof H as [P _]; pose proof (public_rec _ _ P) as (_ & _ & _ & Pg & Px & _ & _ & _ & _).
  all: try (rewrite <- Pg, <- Px in HC').
  all: try (destruct (hc_same _ _ _ _ _ _ _ _ _ _ _ _ _ _ I ES HC HC') as [HF HO]; try contradiction).
  - (* touch *)
    split; [constructor; [|constructor]|split].
    + constructor. apply W_agree; [apply TW, H|exact Ps].
    + exists []. do 3 eexists. exists []. do 2 eexists. split; [reflexivity|]. split; [reflexivity|]. apply TW, H.
    + reflexivity.
  - (* fault *) destruct (pend_entry _ _ _ _ PO Ru Ps En) as (_ & _ & _ & _ & P5).
    split; [constructor; [|constructor]|split].
    + constructor. apply W_agree; [exact ES|exact P5].
    + exists []. do 3 eexists. exists []. do 2 eexists. split; [reflexivity|]. split; [reflexivity|]. exact ES.
    + apply ANS. subst l'. pose proof (W_parts _ _ ES) as (_ & _ & _ & _ & _ & _ & _ & _ & H9).
      assert (B : r_host_call r6 = true). { destruct HC as [(_ & _ & K)|[(K & _)|(K & _)]]; [discriminate K|exact K|exact K]. }
      unfold fault_exit. rewrite (H9 B). apply exit_same_refl.
  - (* run *) destruct (pend_entry _ _ _ _ PO Ru Ps En) as (_ & _ & _ & _ & P5). destruct (hc_keeps _ _ _ _ _ _ _ _ HC) as (_ & _ & _ & K4 & _).
    destruct (head_same tm _ _ exit_zero at_ at' (W_start _ _ e HO)) as (S1 & S2 & S3). cbv zeta in S1, S2, S3. rewrite <- El, <- El' in S1, S2, S3.
    split; [|split].
    + constructor; [constructor; subst r1 r1'; apply W_agree; [apply TW, H|exact Ps]|]. apply Forall2_app; [exact HF|]. constructor; [|constructor]. constructor.
      apply W_agree; [exact S2|]. subst l. eapply PS; [exact K4|exact P5].
    + exists (LRec a r r1 1 :: hl). do 3 eexists. exists (LRec a r' r1' 1 :: hl'). do 2 eexists. split; [reflexivity|]. split; [reflexivity|]. exact S2.
    + exact Logic.I.
  - exfalso. destruct (head_same tm _ _ exit_zero at_ at' (W_start _ _ e HO)) as (S1 & S2 & S3). cbv zeta in S1, S2, S3. rewrite <- El, <- El' in S1. congruence.
  - exfalso. destruct (head_same tm _ _ exit_zero at_ at' (W_start _ _ e HO)) as (S1 & S2 & S3). cbv zeta in S1, S2, S3. rewrite <- El, <- El' in S1. congruence.
  - (* timer *) destruct (pend_entry _ _ _ _ PO Ru Ps En) as (_ & _ & _ & _ & P5). destruct (hc_keeps _ _ _ _ _ _ _ _ HC) as (_ & _ & _ & K4 & _).
    destruct (head_same tm _ _ exit_zero at_ at' (W_start _ _ e HO)) as (S1 & S2 & S3). cbv zeta in S1, S2, S3. rewrite <- El, <- El' in S1, S2, S3.
    pose proof (PS r6 r7 e tm at_ exit_zero K4 P5) as P7. rewrite <- El in P7.
    destruct (fst l) as [ra_ xa aa] eqn:El1. destruct (fst l') as [rb_ xb ab] eqn:El2. cbn [v_rec v_exit] in S2, S3, P7. subst xb.
    destruct (end_same (h_gic h) fi _ _ xa aa ab S2) as [T1 T2]. rewrite <- Ev, <- Ev' in T1, T2.
    destruct (end_keeps (h_gic h) fi (mkV ra_ xa aa) false) as (_ & Z2 & _). rewrite <- Ev in Z2. unfold pend in Z2. injection Z2 as _ _ Z2 _. cbn [v_rec] in Z2.
    split; [|split].
    + constructor; [constructor; subst r1 r1'; apply W_agree; [apply TW, H|exact Ps]|]. apply Forall2_app; [exact HF|]. constructor; [|constructor]. constructor.
      apply W_agree; [exact T1|]. congruence.
    + exists (LRec a r r1 1 :: hl). do 3 eexists. exists (LRec a r' r1' 1 :: hl'). do 2 eexists. split; [reflexivity|]. split; [reflexivity|]. exact T1.
    + apply ANS, T2.
Qed.

Lemma rests_agree : forall m m' a, agree m m' -> rests m a -> rests m' a.
Proof. intros m m' a (_ & _ & _ & C & _) H p. rewrite <- C. apply H. Qed.

Lemma enter_same : forall c h gh gh0 m m' p a ra en fi tm m1 m1' rp rp', MInv c gh m -> MInv c gh0 m' -> agree_rest m m' ->
  step c h m (OEnter p a ra en fi tm) = RDone m1 rp -> step c h m' (OEnter p a ra en fi tm) = RDone m1' rp' ->
  reply_same rp rp' /\ agree_rest m1 m1'.
Proof.
  intros c h gh gh0 m m' p a ra en fi tm m1 m1' rp rp' M M0 [AG TO] ST ST'. pose proof (minv_agree _ _ _ _ _ M M0 AG) as M'. clear M0 gh0.
  pose proof AG as (_ & _ & AV & AC & A).
  destruct (step_enter c h gh m M _ _ _ _ _ _ _ _ ST) as (gh1 & labs & M1 & GE & OE). destruct (step_enter c h gh m' M' _ _ _ _ _ _ _ _ ST') as (gh1' & labs' & M1' & GE' & OE').
  cbn [op_eff] in OE, OE'. destruct OE as (Ep & -> & out & EO & _ & _ & EC). destruct OE' as (Ep' & -> & out' & EO' & _ & _ & EC').
  pose proof (mv_inv _ _ _ M) as I. pose proof (mv_inv _ _ _ M') as I'.
  destruct (enter_frame _ _ _ _ _ _ _ _ _ _ _ _ _ _ _ I EO GE) as [FV FR]. destruct (enter_frame _ _ _ _ _ _ _ _ _ _ _ _ _ _ _ I' EO' GE') as [FV' FR'].
  assert (VV : forall v, m_vmids m1 v = m_vmids m1' v) by (intro v; rewrite FV, FV'; apply AV).
  destruct (enter_code c h (m_gr m) a ra en) as [code|] eqn:EN.
  - pose proof EN as EN'. rewrite (code_agree _ _ _ _ _ _ _ _ _ I A) in EN'.
    destruct (enter_ret _ _ _ _ _ _ _ _ _ _ _ _ _ M EN ST) as (-> & G1 & C1). destruct (enter_ret _ _ _ _ _ _ _ _ _ _ _ _ _ M' EN' ST') as (-> & G1' & C1').
    split; [reflexivity|]. split.
    + eapply agree_of; [exact M1|exact M1'|exact VV|rewrite C1, C1'; exact AC|]. intro g. rewrite G1, G1'. apply A.
    + intros b r r' R R' RE. unfold rec_is in R, R'. rewrite G1 in R. rewrite G1' in R'. apply (TO b r r' R R'). unfold rests in *. rewrite C1 in RE. exact RE.
  - assert (WW : forall r r', is_rec (m_gr m) a r -> is_rec (m_gr m') a r' -> g_ref (m_gr m a) = 0 -> W r r' /\ pend_ok r /\ pend_ok r').
    { intros r r' R R' Rf. split; [|split; [apply (mv_pend _ _ _ M a r R)|apply (mv_pend _ _ _ M' a r' R')]]. split.
      - destruct (rec_to _ _ _ _ A R) as (r0 & [S0 R0] & P & _). destruct R' as [S' R']. rewrite R' in R0. injection R0 as ->. exact P.
      - apply (TO a r r'); [exact R|exact R'|]. eapply rest_used; eassumption. }
    destruct (enter_cases _ _ _ _ _ _ _ _ _ _ _ _ _ _ _ _ _ I A WW EN EO EO') as (LS & (pre & r0 & rf & n & pre' & r0' & rf' & E1 & E2 & WF) & OS).
    assert (CC : reply_same rp rp' /\ forall q, option_map ru_rec (m_cpu m1 q) = option_map ru_rec (m_cpu m1' q)).
    { destruct out, out'; try contradiction; destruct EC as [-> EC], EC' as [-> EC']; (split; [first [exact OS|reflexivity]|]); rewrite EC, EC'; [exact AC|].
      intro q. unfold upd. destruct (q =? p); [reflexivity|apply AC]. }
    destruct CC as [RS CC]. split; [exact RS|]. split.
    + eapply agree_of; [exact M1|exact M1'|exact VV|exact CC|]. eapply labs_agree; [exact LS|exact GE|exact GE'|exact A].
    + intros b r r' R R' RE. destruct (N.eq_dec b a) as [->|nb].
      * rewrite E1 in GE. rewrite E2 in GE'. destruct (rec_last _ _ _ _ _ _ _ _ _ _ _ _ GE I) as (K & _). destruct (rec_last _ _ _ _ _ _ _ _ _ _ _ _ GE' I') as (K' & _).
        destruct R as [_ R], R' as [_ R']. rewrite K in R. rewrite K' in R'. injection R as <-. injection R' as <-. apply WF.
      * destruct R as [RS1 R], R' as [RS1' R']. pose proof (FR b nb (or_intror RS1)) as FB. pose proof (FR' b nb (or_intror RS1')) as FB'. rewrite FB in RS1, R. rewrite FB' in RS1', R'.
        apply (TO b r r'); [split; assumption|split; assumption|].
        intros q Eq. apply (RE q). destruct out; destruct EC as [_ EC]; rewrite EC; [exact Eq|]. unfold upd. destruct (N.eqb_spec q p) as [->|]; [rewrite Ep in Eq; discriminate Eq|exact Eq].
Qed.
