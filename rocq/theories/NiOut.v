(** RMI_REC_ENTER stops in one machine when it stops in the other, and where the
    secrets lie. *)
From Coq Require Import NArith ZArith List Bool Lia.
From Verif Require Import Bits S2tte S2tteFacts State Granule Wp RecFields Measure RmiRtt RmiRealm Psci RmiRec Gic Esr Rsi RecRun
  Arch ArchFacts Mmu Machine Spec SpecStep SpecAgree SpecAgree2 Inv InvTree Effects CmdLib CmdRec CmdRsi CmdRsi2 CmdRun CmdRun2
  InvStep InvStep2 InvStep3 Frames MInv MStep View Own Step Step5 Step7 NiFacts NiEnter NiEnter2 NiExit.
Import ListNotations.
Local Open Scope N_scope.

Lemma enter_stop : forall c h gh gh0 m m' p a ra en fi tm, cfg_ok c -> MInv c gh m -> MInv c gh0 m' -> agree_rest m m' -> op_ok (OEnter p a ra en fi tm) ->
  step c h m (OEnter p a ra en fi tm) = RPanic -> step c h m' (OEnter p a ra en fi tm) = RPanic.
Proof.
  intros c h gh gh0 m m' p a ra en fi tm C M M0 [AG TO] OK ST. pose proof (minv_agree _ _ _ _ _ M M0 AG) as M'. clear M0 gh0.
  pose proof AG as (_ & _ & AV & AC & A). pose proof (mv_inv _ _ _ M) as I.
  pose proof (step_safe c h gh m' _ C M' OK) as SF. destruct (step c h m' (OEnter p a ra en fi tm)) as [m1' rp'| | | |] eqn:ST'; try contradiction; [exfalso|reflexivity|].
  2:{ exfalso. cbn [step] in ST, ST'. specialize (AC p). destruct (m_cpu m p), (m_cpu m' p); try discriminate. destruct (run _ _) as [[]| |] in ST'; discriminate. }
  destruct (step_enter c h gh m' M' _ _ _ _ _ _ _ _ ST') as (gh1' & labs' & M1' & GE' & OE'). cbn [op_eff] in OE'. destruct OE' as (Ep' & -> & out' & EO' & _ & _ & EC').
  cbn [step] in ST. destruct (m_cpu m p) eqn:Ep; [discriminate|].
  assert (PO : forall r, is_rec (m_gr m) a r -> pend_ok r) by (intros r R; apply (mv_pend _ _ _ M a r R)).
  pose proof (wp_enter_stops c gh (m_gr m) (m_vmids m) I (m_locks m) (m_slots m p) (m_tlb m) (mv_locks _ _ _ M) (idle_slots _ _ _ M p Ep) h fi tm a ra en (m_att m a) PO) as WS.
  destruct (enter_code c h (m_gr m) a ra en) as [code|] eqn:EN.
  { pose proof (wp_enter_code c gh (m_gr m) (m_vmids m) I (m_locks m) (m_slots m p) (m_tlb m) (mv_locks _ _ _ M) (idle_slots _ _ _ M p Ep) h fi tm a ra en (m_att m a) code EN) as K.
    unfold cpu_state in ST. unfold wp in K. destruct (run _ _) as [[]| |] in ST, K; try discriminate; contradiction. }
  assert (ES : enter_stops gh (m_gr m) h a en).
  { unfold cpu_state in ST. unfold wp in WS. destruct (run _ _) as [[]| |] in ST, WS; try discriminate; exact WS. }
  clear WS ST. pose proof EN as EN'. rewrite (code_agree _ _ _ _ _ _ _ _ _ I A) in EN'.
  destruct ES as (r & d & e & r6 & l & -> & R & Rf & En & Rd & HC & Hl).
  assert (FIN : forall r' r6' hl o, is_rec (m_gr m') a r' -> entry_rec (h_gic h) r' e = Some r6' -> hc_out gh (m_gr m') (r_g_rd r') (r_ctx r') r6' e hl o -> o = inr l).
  { intros r' r6' hl o R' En' HC'.
    assert (W0 : W r r').
    { split.
      - destruct (rec_to _ _ _ _ A R) as (r0 & [S0 R0] & P & _). destruct R' as [S' R']. rewrite R' in R0. injection R0 as ->. exact P.
      - apply (TO a r r'); [exact R|exact R'|]. eapply rest_used; eassumption. }
    pose proof (entry_same (h_gic h) r r' e W0 (proj1 (mv_pend _ _ _ M a r R)) (proj1 (mv_pend _ _ _ M' a r' R'))) as E6. rewrite En, En' in E6.
    pose proof (public_rec _ _ (proj1 W0)) as (_ & _ & _ & Pg & Px & _). rewrite <- Pg, <- Px in HC'.
    destruct (hc_same _ _ _ _ _ _ _ _ _ _ _ _ _ _ I E6 HC HC') as [_ HO]. destruct o; [contradiction|congruence]. }
  destruct EO' as [code' HB'|r' d' e' He' R' Rf' Rd' St' Ru' Ps' Gv' En'|r' d' e' r6' l' He' R' Rf' Rd' St' Ru' Ps' Gv' En' HC' Hl'
                 |r' r1' d' e' r6' hl' r7' l' He' R' Rf' Rd' St' Ru' Ps' Gv' En' HC' Er1' El' Sl'|r' r1' d' e' r6' hl' r7' l' v0' He' R' Rf' Rd' St' Ru' Ps' Gv' En' HC' Er1' El' Sl' Ev'].
  1: exact (bad_code _ _ _ _ _ _ _ HB' EN').
  all: apply some_inj in He'; subst e'.
  - assert (W0 : W r r').
    { split.
      - destruct (rec_to _ _ _ _ A R) as (r0 & [S0 R0] & P & _). destruct R' as [S' R']. rewrite R' in R0. injection R0 as ->. exact P.
      - apply (TO a r r'); [exact R|exact R'|]. eapply rest_used; eassumption. }
    pose proof (entry_same (h_gic h) r r' e W0 (proj1 (mv_pend _ _ _ M a r R)) (proj1 (mv_pend _ _ _ M' a r' R'))) as E6. rewrite En, En' in E6. exact E6.
  - pose proof (FIN _ _ _ _ R' En' HC') as X. injection X as ->. lia.
  - pose proof (FIN _ _ _ _ R' En' HC') as X. discriminate X.
  - pose proof (FIN _ _ _ _ R' En' HC') as X. discriminate X.
Qed.

Lemma rest_symm : forall m m', agree_rest m m' -> agree_rest m' m.
Proof. exact rest_sym. Qed.

Lemma outcome_same : forall c h m m' o, reachable c h m -> reachable c h m' -> agree_rest m m' -> host_act o = true -> op_ok o ->
  same_outcome (step c h m o) (step c h m' o).
Proof.
  intros c h m m' o R R' A HA OK.
  assert (D : (exists p a ra en fi tm, o = OEnter p a ra en fi tm) \/ host_op o = true) by (destruct o; try discriminate HA; [right|left|right]; eauto 8).
  assert (DN : forall m1 r m1' r', step c h m o = RDone m1 r -> step c h m' o = RDone m1' r' -> same_outcome (step c h m o) (step c h m' o)).
  { intros m1 r m1' r' S S'. rewrite S, S'. exact (ask_same _ _ _ _ _ _ _ _ _ R R' A HA OK S S'). }
  destruct D as [(p & a & ra & en & fi & tm & ->)|HO].
  - destruct (reach_minv _ _ _ R) as (gh & M). destruct (reach_minv _ _ _ R') as (gh' & M').
    assert (C : cfg_ok c) by (destruct R; assumption).
    pose proof (step_safe c h gh m _ C M OK) as SF. pose proof (step_safe c h gh' m' _ C M' OK) as SF'.
    pose proof (enter_stop c h _ _ _ _ p a ra en fi tm C M M' A OK) as E1. pose proof (enter_stop c h _ _ _ _ p a ra en fi tm C M' M (rest_sym _ _ A) OK) as E2.
    assert (N : step c h m (OEnter p a ra en fi tm) = RNot <-> step c h m' (OEnter p a ra en fi tm) = RNot).
    { destruct A as [(_ & _ & _ & AC & _) _]. specialize (AC p). cbn [step]. destruct (m_cpu m p), (m_cpu m' p); try discriminate AC; [tauto|].
      split; intro X; exfalso; (destruct (run _ _) as [[]| |] in X; discriminate X). }
    destruct (step c h m (OEnter p a ra en fi tm)) as [m1 r| | | |] eqn:S, (step c h m' (OEnter p a ra en fi tm)) as [m1' r'| | | |] eqn:S';
      try contradiction; try exact Logic.I; try (specialize (E1 eq_refl); discriminate E1); try (specialize (E2 eq_refl); discriminate E2);
      try (destruct N as [N1 N2]; first [specialize (N1 eq_refl); discriminate N1|specialize (N2 eq_refl); discriminate N2]).
    exact (DN _ _ _ _ eq_refl eq_refl).
  - pose proof (host_answer2 c h m m' o R (proj1 A) HO) as K.
    destruct (step c h m o) as [m1 r| | | |] eqn:S, (step c h m' o) as [m1' r'| | | |] eqn:S'; try contradiction; try exact Logic.I.
    exact (DN _ _ _ _ eq_refl eq_refl).
Qed.

Lemma secrets_where : forall c h m m' a, reachable c h m -> agree m m' -> realm_owned (g_state (m_gr m a)) = false ->
  exists f f', g_mem (m_gr m a) = CW f /\ g_mem (m_gr m' a) = CW f' /\ forall i, f i = f' i.
Proof.
  intros c h m m' a R (_ & _ & _ & _ & A) H. destruct (reach_minv _ _ _ R) as (gh & M). pose proof (mv_inv _ _ _ M) as I.
  assert (W : exists f, g_mem (m_gr m a) = CW f).
  { destruct (g_state (m_gr m a)) eqn:S; try discriminate H; try (exfalso; pose proof (i_kinds _ _ _ _ I a) as K; rewrite S in K; exact K).
    - apply (i_ns _ _ _ _ I a S).
    - rewrite (i_del _ _ _ _ I a S). eexists. reflexivity.
    - destruct (own gh a) as [[[rd l] t]|] eqn:O; [|exfalso; exact (i_rtt _ _ _ _ I a S O)].
      destruct (i_own _ _ _ _ I _ _ _ _ O) as (d0 & _ & X). destruct (t_words _ _ _ _ _ _ _ X) as (f & E & _). eauto. }
  destruct W as (f & E). destruct (A a) as (S1 & _ & [D|[D|D]]); try (rewrite D in H; discriminate H).
  rewrite E in D. destruct (g_mem (m_gr m' a)) as [f'| |]; try contradiction. exists f, f'. auto.
Qed.
