(** What single steps do to the memory of realms *)
From Coq Require Import NArith ZArith List Bool Lia ZifyBool ZifyN.
From Verif Require Import Bits S2tte S2tteFacts State Granule Wp RecFields Measure RmiRtt RmiRealm Psci RmiRec Gic Esr Rsi RecRun
  Arch ArchFacts Mmu Machine Spec SpecStep SpecExit SpecRec Inv InvTree MmuFacts InvStep InvStep2 InvStep3 Effects Frames CmdLib CmdData CmdRipas
  CmdRec CmdRealm CmdRsi2 CmdRun CmdRun2 CmdAll MInv MStep View StepView Own ExitFacts Step Step2 Step3 Step4 Step5.
Import ListNotations.
Local Open Scope N_scope.

(** Induction over histories *)
Lemma reach_ind : forall c h (P : mstate -> Prop), (cfg_ok c -> forall mem, P (init mem)) ->
  (forall m o m' rp, next c h m o m' rp -> P m -> P m') -> forall m, reachable c h m -> P m.
Proof.
  intros c h P H0 HS m (C & mem & l & S & F).
  assert (K : forall m0 l m, steps c h m0 l m -> reachable c h m0 -> Forall op_ok (map fst l) -> P m0 -> P m).
  { intros m0 l0 m1 S0. induction S0 as [|m0 o r m1 l0 m2 ST S0 IH]; intros R0 F0 P0; [exact P0|].
    cbn [map fst] in F0. inversion F0 as [|? ? F1 F2]; subst.
    assert (X : next c h m0 o m1 r) by (split; [exact R0|split; assumption]).
    apply IH; [eapply next_reachable; exact X|exact F2|eapply HS; eassumption]. }
  eapply K; [exact S| |exact F|apply H0, C]. split; [exact C|]. exists mem, []. split; constructor.
Qed.

Lemma host_write_eq : forall f off g i, host_call_write f off g i = host_reply f off g i.
Proof.
  intros. unfold host_call_write, host_reply. set (k := off / 8).
  replace (k + 1 <=? i) with (k <? i) by lia. destruct ((k <? i) && (i <? k + 32)); [|reflexivity]. f_equal. lia.
Qed.

Lemma data_step : forall c h m o m' rp, next c h m o m' rp -> forall z, g_state (m_gr m z) = DATA -> g_state (m_gr m' z) = DATA ->
  g_mem (m_gr m' z) = g_mem (m_gr m z) \/
  exists a d ipa q, realm m a d /\ protected (rd_ctx d) ipa /\ page_at (m_gr m) (rd_ctx d) ipa = PAssigned q z /\
    ((exists rec r, acts m o rec r /\ r_g_rd r = a) \/
     (q = RAM /\ exists g f f', host_call_reply m o a ipa g /\ g_mem (m_gr m z) = CW f /\ g_mem (m_gr m' z) = CW f' /\
        forall i, f' i = host_reply f (ipa mod 4096) g i)).
Proof.
  intros c h m o m' rp H z S S'. pose proof H as (RC & _). destruct (next_good _ _ _ _ _ _ H) as (gh & gh' & labs & M & M' & GE & OE).
  pose proof (mv_inv _ _ _ M) as I. pose proof (geffs_gran _ _ _ _ _ _ _ _ GE I z) as GC.
  assert (DM : forall a p, dmap gh z = Some (a, p) -> exists d ipa q, realm m a d /\ protected (rd_ctx d) ipa /\ page_at (m_gr m) (rd_ctx d) ipa = PAssigned q z).
  { intros a p D. destruct (dmap_granule _ _ _ _ I _ _ _ D) as (d & R & PR & E). exists d, (p * 4096).
    destruct (page_at (m_gr m) (rd_ctx d) (p * 4096)); try discriminate E. cbn in E. injection E as ->. eauto. }
  assert (RL : forall lab g g', gchange c lab z g g' -> g_state g = DATA -> (exists a r r' n, lab = LRec a r r' n) -> g' = g).
  { intros lab g g' G1 S1 (a & r & r' & n & ->). destruct G1 as [->|K]; [reflexivity|]. unfold gchange in K. destruct K as (_ & X & _). congruence. }
  assert (RC1 : forall lab g g', gchange c lab z g g' -> g_state g = DATA -> (exists a d d', lab = LRd a d d') -> g' = g).
  { intros lab g g' G1 S1 (a & r & r' & ->). destruct G1 as [->|K]; [reflexivity|]. unfold gchange in K. destruct K as (_ & X & _). congruence. }
  destruct o; cbn [op_eff] in OE; cbv zeta in OE.
  - left. destruct (cmd_data _ _ _ _ _ _ _ _ H S') as [E|(r & f & -> & _ & OK & K)]; [rewrite E; reflexivity|].
    exfalso. assert (MV : g_state (m_gr m z) = DELEGATED).
    { destruct K as [(rd & map & -> & _)|(ok & rd & map & src & fl & ->)].
      - eapply (moves_states _ _ _ _ _ _ _ _ _ H). eapply mv_data_unknown. exists p. eauto.
      - eapply (moves_states _ _ _ _ _ _ _ _ _ H). eapply mv_data_create. exists p. eauto. }
    congruence.
  - destruct OE as (CP & -> & out & EO & _ & _ & RP). rename run_addr into ra.
    assert (HCF : forall r d0 e r6 hl o1, enter = Some e -> is_rec (m_gr m) rec r -> is_rd (m_gr m) (r_g_rd r) d0 -> entry_rec (h_gic h) r e = Some r6 ->
      hc_out gh (m_gr m) (r_g_rd r) (r_ctx r) r6 e hl o1 -> forall g1 g2, g1 = m_gr m z -> gchanges c hl z g1 g2 -> (g_state g2 = DATA -> m_gr m' z = g2) ->
      g_mem (m_gr m' z) = g_mem (m_gr m z) \/
      exists a d ipa q, realm m a d /\ protected (rd_ctx d) ipa /\ page_at (m_gr m) (rd_ctx d) ipa = PAssigned q z /\
      ((exists rec0 r, acts m (OEnter p rec ra enter fi tm) rec0 r /\ r_g_rd r = a) \/
       (q = RAM /\ exists g f f', host_call_reply m (OEnter p rec ra enter fi tm) a ipa g /\ g_mem (m_gr m z) = CW f /\ g_mem (m_gr m' z) = CW f' /\
        forall i, f' i = host_reply f (ipa mod 4096) g i))).
    { intros r d0 e r6 hl o1 -> R R0 ER HC g1 g2 E1 G1 E2.
      destruct HC as [(_ & -> & _)|[(HC & l & b & pa & g & f & LF & Eg & D & Mg & -> & _)|(_ & -> & _)]]; try (left; cbn in G1; rewrite E2; congruence).
      apply gchanges_one in G1. destruct G1 as [G1|(-> & G1 & _)]; [left; rewrite E2; congruence|].
      pose proof (mv_pend _ _ _ M _ _ R) as (PO & _). pose proof (entry_keeps _ _ _ _ ER) as (K1 & K2 & K3 & K4 & K5 & K6 & K7 & K8 & K9).
      destruct PO as (_ & PO & _). rewrite K2 in HC. destruct (PO HC) as (Q1 & Q2 & Q3 & Q4). specialize (K9 Q1 Q2). rewrite K9 in *.
      assert (EX : r_ctx r = rd_ctx d0). { destruct (rec_realm _ _ _ RC _ _ R) as (d2 & R2 & O2). destruct R2 as [_ R2], R0 as [_ R0]. rewrite R0 in R2. injection R2 as <-. apply O2. }
      rewrite EX in Q3.
      right. exists (r_g_rd r), d0, (r_regs r 1), RAM. split; [exact R0|]. split; [exact Q3|]. split.
      - destruct (view_leaf _ _ _ _ I _ _ _ _ _ _ R0 (protected_in _ _ _ _ _ _ RC R0 Q3) LF) as [E _]. rewrite E. cbn [view_e]. unfold at_page. rewrite Eg. reflexivity.
      - right. split; [reflexivity|]. exists (en_gprs e), f, (host_call_write f (r_regs r 1 mod 4096) (en_gprs e)).
        split. { exists p, rec, ra, e, fi, tm, r. repeat (split; [reflexivity || assumption|]). reflexivity. }
        split; [exact Mg|]. split; [rewrite E2, G1 by (rewrite G1; reflexivity); reflexivity|]. intro i. apply host_write_eq. }
    inversion EO; subst.
    + left. cbn in GC. rewrite GC. reflexivity.
    + left. apply gchanges_one in GC. rewrite (RL _ _ _ GC S); [reflexivity|eauto 6].
    + left. apply gchanges_one in GC. rewrite (RL _ _ _ GC S); [reflexivity|eauto 6].
    + destruct GC as (g1 & G1 & G2). apply RL in G1; [|exact S|eauto 6]. apply gchanges_app in G2. destruct G2 as (g2 & G2 & G3).
      apply gchanges_one in G3. eapply HCF; [reflexivity|eassumption..|].
      intro SD. eapply RL; eauto 6.
    + destruct GC as (g1 & G1 & G2). apply RL in G1; [|exact S|eauto 6]. apply gchanges_app in G2. destruct G2 as (g2 & G2 & G3).
      apply gchanges_one in G3. eapply HCF; [reflexivity|eassumption..|].
      intro SD. eapply RL; eauto 6.
  - destruct OE as (-> & ru & r & d0 & out & at_ & simd & CP & RR & R & RO & _). apply run_labs in RO. destruct RO as (pre & r' & n & -> & P).
    apply gchanges_app in GC. destruct GC as (g1 & G1 & G2). apply gchanges_one in G2.
    assert (E2 : g_state g1 = DATA -> m_gr m' z = g1) by (intro; eapply RL; eauto 6). cbn [v_rec] in P.
    destruct P as [->|[(g & f' & -> & q & D)|(_ & _ & [(_ & i & _ & _ & _ & ->)|(_ & ->)])]].
    + left. cbn in G1. subst g1. rewrite E2 by exact S. reflexivity.
    + apply gchanges_one in G1. destruct G1 as [->|(-> & G1 & _)]; [left; rewrite E2 by exact S; reflexivity|].
      right. destruct (DM _ _ D) as (d & ipa & q1 & K1 & K2 & K3). exists (r_g_rd r), d, ipa, q1. repeat (split; [assumption|]). left.
      exists (ru_rec ru), r. split; [|reflexivity]. exists p. split; [reflexivity|]. split; [exists ru; auto|exact RR].
    + left. apply gchanges_one in G1. apply RC1 in G1; [|exact S|eauto]. rewrite E2; congruence.
    + left. apply gchanges_one in G1. apply RC1 in G1; [|exact S|eauto]. rewrite E2; congruence.
  - left. destruct OE as (_ & _ & _ & ru & r & _ & _ & ->). apply gchanges_one in GC. rewrite (RL _ _ _ GC S); [reflexivity|eauto 6].
  - left. destruct OE as (_ & _ & _ & ru & r & d & l & w & oa & ns & xn & f & _ & _ & _ & _ & _ & _ & _ & ->).
    apply gchanges_one in GC. rewrite (RL _ _ _ GC S); [reflexivity|eauto 6].
  - destruct OE as (_ & _ & _ & ru & r & d & l & w & oa & ns & xn & f & CP & RR & R & _ & XR & ST & _ & ->).
    apply gchanges_one in GC. destruct GC as [->|(-> & _)]; [auto|]. right.
    inversion XR; subst; [|congruence].
    match goal with D : dmap gh _ = Some _ |- _ => destruct (DM _ _ D) as (d1 & ipa1 & q1 & K1 & K2 & K3) end.
    exists (r_g_rd r), d1, ipa1, q1. repeat (split; [assumption|]). left.
    exists (ru_rec ru), r. split; [|reflexivity]. exists p. split; [reflexivity|]. split; [exists ru; auto|exact RR].
  - left. destruct OE as (_ & _ & -> & _). cbn in GC. rewrite GC. reflexivity.
  - left. destruct OE as (_ & _ & _ & ru & r & _ & _ & _ & SA & ->). apply gchanges_one in GC. destruct GC as [->|(-> & _)]; [reflexivity|congruence].
  - left. destruct OE as (_ & _ & _ & f & SA & _ & ->). apply gchanges_one in GC. destruct GC as [->|(-> & _)]; [reflexivity|congruence].
Qed.

(** The memory that a realm finds after a step that none of its RECs makes *)
Lemma words_after : forall c h m o m' rp, next c h m o m' rp -> forall a d d' ipa f', realm m a d -> realm m' a d' -> rd_state d <> REALM_NEW ->
  protected (rd_ctx d) ipa -> (forall rec r, acts m o rec r -> r_g_rd r <> a) ->
  page_words (m_gr m') (page_at (m_gr m') (rd_ctx d) ipa) = Some f' ->
  page_words (m_gr m) (page_at (m_gr m) (rd_ctx d) ipa) = Some f' \/
  (page_at (m_gr m) (rd_ctx d) ipa = PUnassigned RAM /\ forall i, f' i = 0) \/
  (exists q, asked m o rp a ipa q /\ new_ripas q = Some RAM /\
     exists o1 pa, page_at (m_gr m) (rd_ctx d) ipa = PAssigned o1 pa /\ o1 <> RAM /\ g_mem (m_gr m pa) = CW f') \/
  (exists ipa1 g f, host_call_reply m o a ipa1 g /\ ipa1 / 4096 = ipa / 4096 /\
     page_words (m_gr m) (page_at (m_gr m) (rd_ctx d) ipa) = Some f /\ forall i, f' i = host_reply f (ipa1 mod 4096) g i).
Proof.
  intros c h m o m' rp H a d d' ipa f' R R' NN PR NA W. pose proof H as (RCH & _). pose proof (next_reachable _ _ _ _ _ _ H) as RCH'.
  assert (EC := ctx_step _ _ _ _ _ _ H a d d' R R').
  destruct o as [p k| | | | | | | |].
  1:{ destruct (words_step _ _ _ _ _ _ _ H _ _ _ _ _ R R' NN PR W) as [K|[K|K]]; auto. }
  all: destruct (page_step _ _ _ _ _ _ H _ _ _ R R') as (_ & P); destruct (P _ (protected_in _ _ _ _ _ _ RCH R PR)) as [E _]; clear P; cbn [page_then] in E; rewrite E in W.
  all: destruct (page_at (m_gr m) (rd_ctx d) ipa) as [|? |[] z| |] eqn:EP; try discriminate W; cbn [page_words] in W |- *.
  all: assert (S : g_state (m_gr m z) = DATA) by (eapply data_at; eassumption).
  all: assert (S' : g_state (m_gr m' z) = DATA) by (rewrite <- EC in E; eapply data_at; eassumption).
  all: destruct (data_step _ _ _ _ _ _ H z S S') as [EM|(ea & d1 & ipa1 & q & R1 & P1 & E1 & [(rec0 & r & AC & <-)|(-> & g & fw & fw2 & HR & F1 & F2 & F3)])];
    [left; rewrite <- EM; exact W| |].
  all: destruct (exclusive _ _ _ RCH _ _ _ _ _ _ z R R1 ltac:(rewrite EP; reflexivity) ltac:(rewrite E1; reflexivity)) as (EA & EI).
  all: try (exfalso; eapply NA; [exact AC|congruence]).
  all: right; right; right; rewrite F2 in W; injection W as <-; exists ipa1, g, fw; rewrite EA, F1; auto.
Qed.
