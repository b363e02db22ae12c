(** What single steps do to RECs and to the memory of realms *)
From Coq Require Import NArith ZArith List Bool Lia ZifyBool ZifyN.
From Verif Require Import Bits S2tte S2tteFacts State Granule Wp RecFields Measure RmiRtt RmiRealm Psci RmiRec Gic Esr Rsi RecRun
  Arch ArchFacts Mmu Machine Spec SpecStep SpecExit Inv InvTree MmuFacts InvStep InvStep2 InvStep3 Effects Frames CmdLib CmdData CmdRipas
  CmdRec CmdRealm CmdRsi2 CmdRun CmdRun2 CmdAll MInv MStep View StepView Own ExitFacts Step Step2 Step3 Step4.
Import ListNotations.
Local Open Scope N_scope.

Lemma gch_rec : forall c lab a g g' r, gchange c lab a g g' -> g_state g = REC -> g_mem g = CRec r ->
  (g_state g' = REC /\ exists r', g_mem g' = CRec r' /\ (r' = r \/ exists n, lab = LRec a r r' n)) \/ (exists rd, lab = LRecDestroy rd a r).
Proof.
  intros c lab a g g' d [->|H] S M; [left; split; [exact S|eauto]|].
  destruct lab;
    repeat match goal with
    | H : _ \/ _ |- _ => destruct H
    | H : _ /\ _ |- _ => destruct H
    | H : exists _, _ |- _ => destruct H
    | H : rtt_upd _ _ |- _ => unfold rtt_upd in H
    | H : gone _ _ |- _ => unfold gone in H
    | H : fr _ |- _ => apply fr_state in H
    | H : word_change _ _ |- _ => unfold word_change in H
    end; try congruence; subst.
  - left. split; [reflexivity|]. eexists. split; [reflexivity|]. right. eexists. f_equal; congruence.
  - right. eexists. f_equal. congruence.
Qed.

(** Effects that leave RECs alone *)
Definition rec_still (lab : label) : bool := match lab with LRec _ _ _ _ | LRecDestroy _ _ _ => false | _ => true end.
Lemma gchs_rec_still : forall c labs a g g' d, gchanges c labs a g g' -> forallb rec_still labs = true -> g_state g = REC -> g_mem g = CRec d ->
  g_state g' = REC /\ g_mem g' = CRec d.
Proof.
  intros c labs. induction labs as [|lab labs IH]; intros a g g' d H F S M; [cbn in H; subst; auto|].
  destruct H as (g1 & H1 & H2). cbn [forallb] in F. apply andb_prop in F. destruct F as [F1 F2].
  destruct (gch_rec _ _ _ _ _ _ H1 S M) as [(S1 & d1 & M1 & [->|(n & ->)])|(d0 & ->)]; try discriminate F1.
  eapply IH; eassumption.
Qed.
Lemma chg_rec_still : forall rd l u es m n i, forallb rec_still (chg rd l u es n i m) = true.
Proof.
  intros. apply forallb_forall. intros x IN. apply chg_in in IN. destruct IN as (? & ? & ? & ->). reflexivity.
Qed.

(** The ways in which a REC changes *)
Inductive recchg (c : cfg) (h : hw) (gh : ghost) (m : mstate) (o : op) (rp : reply) (a : N) (r : recd) : recd -> Prop :=
| rk_ripas : forall base top x, done o rp (KRttSetRipas (r_g_rd r) a base top) x ->
    let q := r_set_ripas r in
    recchg c h gh m o rp a r (set_req r (mkReq (sr_base q) (sr_top q) (x1 x) (sr_ripas q) (sr_change_destroyed q) (sr_response q)))
| rk_caller : forall p target status x rt r' rt', o = OCmd p (KPsciComplete a target status) -> rp = Reply x -> a <> target ->
    rec_is m target rt -> g_ref (m_gr m a) = 0 ->
    psci_complete_request r rt (negb (g_ref (m_gr m target) =? 0)) status = Some (x0 x, r', rt') -> recchg c h gh m o rp a r r'
| rk_target : forall p calling status x rc rc' r', o = OCmd p (KPsciComplete calling a status) -> rp = Reply x -> calling <> a ->
    rec_is m calling rc -> g_ref (m_gr m calling) = 0 ->
    psci_complete_request rc r (negb (g_ref (m_gr m a) =? 0)) status = Some (x0 x, rc', r') -> recchg c h gh m o rp a r r'
| rk_enter : forall p ra e fi tm labs out n r0 r', o = OEnter p a ra (Some e) fi tm -> ent_out c h fi tm gh (m_gr m) a ra (Some e) (m_att m a) (labs ++ [LRec a r0 r' n]) out ->
    m_cpu m p = None -> match out with EReturn ret x => rp = Exited ret x | ERun x => rp = Entered end -> recchg c h gh m o rp a r r'
| rk_run : forall p ev fi tm ru d labs n out at_ simd r', o = OExit p ev fi tm -> m_cpu m p = Some ru -> ru_rec ru = a -> realm m (r_g_rd r) d ->
    run_out c h gh (m_gr m) d ev fi tm a (mkV r (ru_exit ru) (m_att m a)) (ru_simd ru) (labs ++ [LRec a r r' n]) (out, at_, simd) ->
    match out with EReturn ret x => rp = Exited ret x | ERun x => rp = Entered end -> recchg c h gh m o rp a r r'
| rk_regs : forall p regs sp pc pstate sys, o = ORegs p regs sp pc pstate sys -> executes m p a -> recchg c h gh m o rp a r (realm_regs r regs sp pc pstate sys)
| rk_load : forall p ipa rt v, o = OLoad p ipa rt -> executes m p a -> recchg c h gh m o rp a r (set_reg r rt v).

Lemma ent_last : forall c h fi tm gh G a ra en at_ labs o, ent_out c h fi tm gh G a ra en at_ labs o ->
  labs = [] \/ exists e pre r0 r' n r, en = Some e /\ labs = pre ++ [LRec a r0 r' n] /\ is_rec G a r.
Proof.
  intros c h fi tm gh G a ra en at_ labs o H. destruct H; [auto|right..].
  - exists e, []. do 4 eexists. split; [assumption|]. split; [reflexivity|eassumption].
  - exists e, []. do 4 eexists. split; [assumption|]. split; [reflexivity|eassumption].
  - exists e, (LRec a r r1 1 :: hl). do 4 eexists. split; [assumption|]. split; [reflexivity|eassumption].
  - exists e, (LRec a r r1 1 :: hl). do 4 eexists. split; [assumption|]. split; [reflexivity|eassumption].
Qed.

Lemma rec_step : forall c h m o m' rp, next c h m o m' rp -> exists gh, MInv c gh m /\
  forall a r r', rec_is m a r -> rec_is m' a r' -> r' = r \/ recchg c h gh m o rp a r r'.
Proof.
  intros c h m o m' rp H. destruct (next_good _ _ _ _ _ _ H) as (gh & gh' & labs & M & M' & GE & OE). exists gh. split; [exact M|].
  intros a r r' [S1 M1] [S2 M2].
  pose proof (mv_inv _ _ _ M) as I. pose proof (geffs_gran _ _ _ _ _ _ _ _ GE I a) as GC.
  assert (ST : forallb rec_still labs = true -> r' = r).
  { intro F. destruct (gchs_rec_still _ _ _ _ _ _ GC F S1 M1) as (_ & E). rewrite M2 in E. injection E as ->. reflexivity. }
  assert (ONE : forall pre lab, labs = pre ++ [lab] -> forallb rec_still pre = true -> r' = r \/ exists n, lab = LRec a r r' n).
  { intros pre lab -> F. apply gchanges_app in GC. destruct GC as (g1 & G1 & G2). destruct (gchs_rec_still _ _ _ _ _ _ G1 F S1 M1) as (S3 & M3).
    apply gchanges_one in G2. destruct (gch_rec _ _ _ _ _ _ G2 S3 M3) as [(_ & d1 & E & K)|(d0 & ->)].
    - rewrite M2 in E. injection E as <-. exact K.
    - left. destruct G2 as [E|[(_ & X & _)|[(_ & _ & _ & _ & X)|(_ & X & _)]]]; [rewrite E in *; congruence|congruence| |congruence].
      unfold gone in X. rewrite X in S2. discriminate S2. }
  destruct o; cbn [op_eff] in OE; cbv zeta in OE.
  - destruct OE as (_ & x & inv & -> & K & _). unfold cmd_eff in K. cbv zeta in K.
    assert (DN : x0 x = RMI_SUCCESS -> done (OCmd p k) (Reply x) k x) by (intro; exists p; auto).
    destruct k.
    all: try (destruct K as [(_ & (-> & _) & _)|(OK & K)]; [left; apply ST; reflexivity|]; specialize (DN OK)).
    all: try (left; apply ST; destruct K as ((-> & _) & _); reflexivity).
    all: try solve [left; apply ST;
      repeat match goal with H : exists _, _ |- _ => destruct H | H : _ /\ _ |- _ => destruct H end; subst labs; reflexivity].
    + destruct K as (_ & rc & R & _ & ->). destruct (ONE [] _ eq_refl eq_refl) as [E|(? & E)]; [auto|discriminate E].
    + destruct K as (_ & [(_ & -> & _)|(rc & rt & rc' & rt' & NE & [Sc Mc] & [St Mt] & F & P & ->)]); [left; apply ST; reflexivity|].
      destruct GC as (g1 & G1 & G2). destruct (gch_rec _ _ _ _ _ _ G1 S1 M1) as [(S3 & r1 & M3 & E)|(? & E)]; [|discriminate E].
      apply gchanges_one in G2. destruct (gch_rec _ _ _ _ _ _ G2 S3 M3) as [(S4 & r2 & M4 & E2)|(? & E2)]; [|discriminate E2].
      rewrite M2 in M4. injection M4 as <-. destruct E as [->|(n & E)]; [destruct E2 as [->|(n2 & E2)]; [auto|]|].
      * injection E2 as -> ? ? ?. subst rc rc'. right. eapply rk_caller; try eassumption; try reflexivity. split; assumption.
      * injection E as -> ? ? ?. subst rt rt'. destruct E2 as [->|(n2 & E2)]; [|exfalso; congruence].
        right. eapply rk_target; try eassumption; try reflexivity. split; assumption.
    + destruct K as (_ & d0 & wi & n & R & Sn & _ & _ & _ & _ & W & RG & ->).
      destruct (ONE _ _ eq_refl (chg_rec_still _ _ _ _ _ _ _)) as [E|(? & E)]; [auto|discriminate E].
    + destruct K as (d0 & rc & wi & n & K). cbv zeta in K. destruct K as (_ & _ & E0 & _ & _ & _ & _ & _ & _ & -> & _).
      destruct (ONE _ _ eq_refl (chg_rec_still _ _ _ _ _ _ _)) as [E|(? & E)]; [auto|]. injection E as -> -> <- _. right.
      rewrite <- E0 in *. eapply rk_ripas. exact DN.
  - destruct OE as (CP & -> & out & EO & _ & _ & RP). pose proof EO as EO2. apply ent_last in EO2.
    destruct EO2 as [->|(e & pre & r0 & r1 & n & r2 & -> & -> & R)]; [left; apply ST; reflexivity|].
    destruct (N.eq_dec a rec) as [->|NE].
    + pose proof (geffs_last_rec _ _ _ _ _ _ _ _ _ _ _ _ GE I) as L. assert (r1 = r') by (rewrite L in M2; cbn in M2; congruence). subst r1.
      right. eapply rk_enter; [reflexivity|exact EO|exact CP|]. destruct out; [destruct RP as [RP _]|destruct RP as [RP _]]; exact RP.
    + left. apply ent_labs in EO. destruct EO as [E|(r3 & d0 & r4 & _ & _ & _ & _ & _ & [E|(r5 & hl & n1 & E & HL)])].
      * destruct pre; discriminate E.
      * rewrite E in GC. apply gchanges_one in GC. destruct (gch_rec _ _ _ _ _ _ GC S1 M1) as [(_ & r6 & E6 & [->|(? & X)])|(? & X)]; congruence.
      * rewrite E in GC. destruct GC as (g1 & G1 & G2). destruct (gch_rec _ _ _ _ _ _ G1 S1 M1) as [(S3 & r6 & M3 & [->|(? & X)])|(? & X)]; try congruence.
        apply gchanges_app in G2. destruct G2 as (g2 & G2 & G3).
        assert (F : forallb rec_still hl = true) by (destruct HL as [->|(_ & ? & ? & -> & _)]; reflexivity).
        destruct (gchs_rec_still _ _ _ _ _ _ G2 F S3 M3) as (S4 & M4). apply gchanges_one in G3.
        destruct (gch_rec _ _ _ _ _ _ G3 S4 M4) as [(_ & r6 & E6 & [->|(? & X)])|(? & X)]; congruence.
  - destruct OE as (-> & ru & r1 & d0 & out & at_ & simd & CP & RR & R & RO & _ & _ & RP). pose proof RO as RO2. apply run_labs in RO. destruct RO as (pre & r2 & n & -> & P).
    cbn [v_rec] in *. assert (F : forallb rec_still pre = true).
    { destruct P as [->|[(g & f' & -> & _)|(X1 & X2 & [(F & i & -> & Hi & Hs & ->)|(F & ->)])]]; reflexivity. }
    destruct (ONE _ _ eq_refl F) as [E|(n1 & E)]; [auto|right]. injection E as E -> -> ->. subst a.
    eapply rk_run; try eassumption; try reflexivity. destruct out; apply RP.
  - destruct OE as (_ & _ & _ & ru & r1 & CP & _ & ->). destruct (ONE [] _ eq_refl eq_refl) as [E|(n1 & E)]; [auto|right].
    injection E as E -> <- _. subst a. eapply rk_regs; [reflexivity|]. exists ru. auto.
  - destruct OE as (_ & _ & _ & ru & r1 & d0 & l & w & oa & ns & xn & f & CP & _ & _ & _ & _ & _ & _ & ->).
    destruct (ONE [] _ eq_refl eq_refl) as [E|(n1 & E)]; [auto|right].
    injection E as E -> <- _. subst a. eapply rk_load; [reflexivity|]. exists ru. auto.
  - destruct OE as (_ & _ & _ & ru & r1 & d0 & l & w & oa & ns & xn & f & _ & _ & _ & _ & _ & _ & _ & ->). left. apply ST. reflexivity.
  - destruct OE as (_ & _ & -> & _). left. apply ST. reflexivity.
  - destruct OE as (_ & _ & _ & ru & r1 & _ & _ & _ & _ & ->). left. apply ST. reflexivity.
  - destruct OE as (_ & _ & _ & f & _ & _ & ->). left. apply ST. reflexivity.
Qed.
