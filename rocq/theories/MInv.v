(** The invariant of the whole system and its preservation by every step *)
From Coq Require Import NArith ZArith List Bool Lia ZifyBool ZifyN.
From Verif Require Import Bits S2tte S2tteFacts State Granule Wp RecFields Measure RmiGranule RmiRtt RmiRealm Psci RmiRec Gic Esr Rsi RecRun
  Arch Mmu Machine SpecExit Inv InvTree MmuFacts InvStep InvStep2 InvStep3 Effects Frames CmdLib CmdGranule CmdRtt CmdFold CmdRtt2 CmdNs CmdData CmdRipas
  CmdList CmdRealm CmdRec CmdRsi CmdRsi2 CmdRun CmdRun2 CmdAll.
Import ListNotations.
Local Open Scope N_scope.

(** A REC that is off has no request to the host *)
Definition off_ok (r : recd) : Prop := r_runnable r = false -> r_host_call r = false /\ r_psci_pending r = false.
(** The REC a CPU executes *)
Definition on (cpu : N -> option running) (p : N) : option N := option_map ru_rec (cpu p).

Record MInv (c : cfg) (gh : ghost) (m : mstate) : Prop := {
  mv_inv : Inv c gh (m_gr m) (m_vmids m);
  mv_locks : free (m_locks m);
  mv_slots : forall p z, m_slots m p z = match m_cpu m p with Some _ => busy z | None => false end;
  mv_run : forall p a, on (m_cpu m) p = Some a -> exists r, is_rec (m_gr m) a r /\ g_ref (m_gr m a) = 1 /\ no_request r /\
    forall d, is_rd (m_gr m) (r_g_rd r) d -> rd_state d <> REALM_NEW;
  mv_once : forall p q a, on (m_cpu m) p = Some a -> on (m_cpu m) q = Some a -> p = q;
  mv_used : forall a, g_state (m_gr m a) = REC -> g_ref (m_gr m a) = 1 -> exists p, on (m_cpu m) p = Some a;
  mv_pend : forall a r, is_rec (m_gr m) a r -> pend_ok r /\ off_ok r;
  mv_att : forall a, att_ok (m_att m a);
  mv_roots : forall a d, is_rd (m_gr m) a d -> roots_ok (rd_ctx d)
}.

(* ------------------------------------------------------------------ *)
(** * RECs under lists of effects *)

Definition only_rec (a : N) (labs : list label) : Prop :=
  Forall (fun l => rec_lab l = false \/ exists r r' n, l = LRec a r r' n) labs.

Lemma only_rec_frame : forall c gh G V labs gh' G' V' a, geffs c gh G V labs gh' G' V' -> Inv c gh G V -> only_rec a labs ->
  forall z, z <> a -> g_state (G z) = REC \/ g_state (G' z) = REC -> G' z = G z.
Proof.
  intros c gh G V labs gh' G' V' a H. induction H as [gh G V G' V' HG HV|gh G V lab gh1 G1 V1 labs gh' G' V' H1 H2 IH];
    intros I L z nz Hz; [apply HG|].
  inversion L as [|? ? L1 L2]; subst. pose proof (geff_inv _ _ _ _ _ _ _ _ I H1) as I1.
  assert (F1 : g_state (G z) = REC \/ g_state (G1 z) = REC -> G1 z = G z).
  { destruct L1 as [L1|(r & r' & n & ->)].
    - apply (rec_frame _ _ _ _ _ _ _ _ I H1 L1).
    - intros _. apply (rec_one _ _ _ _ _ _ _ _ _ _ _ I H1); assumption. }
  pose proof (IH I1 L2 z nz) as F2. destruct Hz as [Hz|Hz].
  - rewrite F2, F1; auto. left. rewrite F1; auto.
  - pose proof (F2 (or_intror Hz)) as E2. rewrite E2. apply F1. right. rewrite <- E2. exact Hz.
Qed.

Lemma geffs_last : forall c gh G V labs lab gh' G' V', geffs c gh G V (labs ++ [lab]) gh' G' V' -> Inv c gh G V ->
  exists gh1 G1 V1 G2 V2, geffs c gh G V labs gh1 G1 V1 /\ geff c gh1 G1 V1 lab gh' G2 V2 /\ (forall z, G' z = G2 z) /\ (forall z, V' z = V2 z) /\
    Inv c gh1 G1 V1.
Proof.
  intros c gh G V labs. revert gh G V. induction labs as [|l0 labs IH]; intros gh G V lab gh' G' V' H I.
  - cbn [app] in H. inversion H as [|? ? ? ? gh1 G1 V1 ? ? ? ? K1 K2]; subst. inversion K2 as [? ? ? ? ? HG HV|]; subst.
    exists gh, G, V, G1, V1. split; [apply gs_nil; reflexivity|]. auto.
  - cbn [app] in H. inversion H as [|? ? ? ? gh1 G1 V1 ? ? ? ? K1 K2]; subst.
    destruct (IH _ _ _ _ _ _ _ K2 (geff_inv _ _ _ _ _ _ _ _ I K1)) as (gh2 & G2 & V2 & G3 & V3 & A1 & A2).
    exists gh2, G2, V2, G3, V3. split; [econstructor; eassumption|exact A2].
Qed.

(** The last effect on a REC *)
Lemma rec_last : forall c gh G V labs a r r' n gh' G' V', geffs c gh G V (labs ++ [LRec a r r' n]) gh' G' V' -> Inv c gh G V ->
  G' a = mkG REC n (CRec r') /\ n <= 1 /\ r_g_rd r' = r_g_rd r.
Proof.
  intros c gh G V labs a r r' n gh' G' V' H I. destruct (geffs_last _ _ _ _ _ _ _ _ _ H I) as (gh1 & G1 & V1 & G2 & V2 & _ & K & E & _ & _).
  inversion K; subst. split; [rewrite E; assumption|auto].
Qed.

Lemma inv_rec_of : forall c gh G V, Inv c gh G V -> forall a, g_state (G a) = REC -> exists r, is_rec G a r.
Proof. intros c gh G V I a S. destruct (i_rec _ _ _ _ I a S) as (_ & r & d & K & _). exists r. split; assumption. Qed.

(* ------------------------------------------------------------------ *)
(** * Preservation *)

Section Keep.
Variables (c : cfg) (gh : ghost) (m : mstate).
Hypothesis M : MInv c gh m.

(** Steps that leave the RECs that run alone *)
Lemma minv_keep : forall gh' labs m', geffs c gh (m_gr m) (m_vmids m) labs gh' (m_gr m') (m_vmids m') ->
  free (m_locks m') -> (forall p z, m_slots m' p z = m_slots m p z) -> m_cpu m' = m_cpu m ->
  (forall a, att_ok (m_att m' a)) ->
  (forall a d, In (LRealmCreate a d) labs -> roots_ok (rd_ctx d) /\ g_state (m_gr m a) <> RD) ->
  (forall a, g_state (m_gr m a) = REC -> g_ref (m_gr m a) = 1 -> m_gr m' a = m_gr m a) ->
  (forall a r', is_rec (m_gr m') a r' -> (pend_ok r' /\ off_ok r') /\ (g_ref (m_gr m' a) = 1 -> g_state (m_gr m a) = REC /\ g_ref (m_gr m a) = 1)) ->
  MInv c gh' m'.
Proof.
  intros gh' labs m' GE HL HS HC HA HR K1 K2.
  assert (RD : forall a d', is_rd (m_gr m') a d' -> (exists d, is_rd (m_gr m) a d /\ rd_grows d d') \/
     (exists d, In (LRealmCreate a d) labs /\ rd_fixed d' = rd_fixed d)) by (apply (rds_frame _ _ _ _ _ _ _ _ GE), M).
  constructor.
  - eapply geffs_inv; [exact GE|apply M].
  - exact HL.
  - intros p z. rewrite HS, HC. apply (mv_slots _ _ _ M).
  - intros p a Ha. rewrite HC in Ha. destruct (mv_run _ _ _ M p a Ha) as (r & R & Rf & NR & NN). exists r.
    pose proof (K1 a (proj1 R) Rf) as E. split; [split; rewrite E; apply R|]. split; [rewrite E; exact Rf|]. split; [exact NR|].
    intros d Hd. destruct (RD _ _ Hd) as [(d0 & R0 & S0 & _)|(d0 & L0 & _)].
    + intro X. apply (NN d0 R0). clear -X S0. change REALM_NEW with 0 in *. lia.
    + destruct (HR _ _ L0) as [_ N]. exfalso. apply N. destruct (i_rec _ _ _ _ (mv_inv _ _ _ M) a (proj1 R)) as (_ & r2 & d2 & M2 & R2 & _).
      destruct R as [_ MM]. rewrite MM in M2. injection M2 as <-. apply R2.
  - intros p q a. rewrite HC. apply (mv_once _ _ _ M).
  - intros a Sa Ra. destruct (inv_rec_of _ _ _ _ (geffs_inv _ _ _ _ _ _ _ _ GE (mv_inv _ _ _ M)) a Sa) as (r' & R').
    destruct (K2 a r' R') as [_ K]. destruct (K Ra) as [Q1 Q2]. rewrite HC. apply (mv_used _ _ _ M); assumption.
  - intros a r R. apply (K2 a r R).
  - exact HA.
  - intros a d Hd. destruct (RD _ _ Hd) as [(d0 & R0 & _ & F0)|(d0 & L0 & F0)];
      (assert (E : rd_ctx d = rd_ctx d0) by (unfold rd_fixed in F0; congruence); rewrite E).
    + apply (mv_roots _ _ _ M a d0 R0).
    + apply (HR _ _ L0).
Qed.

(** Steps that change one REC *)
Lemma minv_rec : forall gh' labs a r r' n m', geffs c gh (m_gr m) (m_vmids m) (labs ++ [LRec a r r' n]) gh' (m_gr m') (m_vmids m') ->
  only_rec a labs -> (forall b d, ~ In (LRealmCreate b d) labs) ->
  free (m_locks m') -> (forall p z, m_slots m' p z = match m_cpu m' p with Some _ => busy z | None => false end) ->
  (forall b, att_ok (m_att m' b)) ->
  (forall p b, b <> a -> (on (m_cpu m') p = Some b <-> on (m_cpu m) p = Some b)) ->
  (n = 1 -> (exists p, on (m_cpu m') p = Some a /\ forall q, on (m_cpu m') q = Some a -> q = p) /\ no_request r' /\
     forall d, is_rd (m_gr m) (r_g_rd r) d -> rd_state d <> REALM_NEW) ->
  (n = 0 -> forall p, on (m_cpu m') p <> Some a) -> pend_ok r' /\ off_ok r' ->
  MInv c gh' m'.
Proof.
  intros gh' labs a r r' n m' GE LA NC HL HS HA HC H1 H0 HP.
  pose proof (mv_inv _ _ _ M) as I. destruct (rec_last _ _ _ _ _ _ _ _ _ _ _ _ GE I) as (Ea & Hn & Eg).
  assert (LA' : only_rec a (labs ++ [LRec a r r' n])).
  { apply Forall_app. split; [exact LA|]. constructor; [|constructor]. right. eauto. }
  assert (F : forall z, z <> a -> g_state (m_gr m z) = REC \/ g_state (m_gr m' z) = REC -> m_gr m' z = m_gr m z) by (apply (only_rec_frame _ _ _ _ _ _ _ _ _ GE I LA')).
  assert (RD : forall b d', is_rd (m_gr m') b d' -> exists d, is_rd (m_gr m) b d /\ rd_grows d d').
  { intros b d' R. destruct (rds_frame _ _ _ _ _ _ _ _ GE I _ _ R) as [K|(d & K & _)]; [exact K|].
    apply in_app_or in K. destruct K as [K|[K|[]]]; [exfalso; apply (NC _ _ K)|discriminate K]. }
  constructor.
  - eapply geffs_inv; eassumption.
  - exact HL.
  - exact HS.
  - intros p b Hb. destruct (N.eq_dec b a) as [->|nb].
    + destruct (N.eq_dec n 1) as [->|nn]; [|exfalso; apply (H0 ltac:(lia) p Hb)].
      destruct (H1 eq_refl) as (_ & NR & NN). exists r'. split; [split; rewrite Ea; reflexivity|]. split; [rewrite Ea; reflexivity|]. split; [exact NR|].
      intros d Hd. rewrite Eg in Hd. destruct (RD _ _ Hd) as (d0 & R0 & S0 & _).
      intro X. apply (NN d0 R0). clear -X S0. change REALM_NEW with 0 in *. lia.
    + apply HC in Hb; [|exact nb]. destruct (mv_run _ _ _ M p b Hb) as (r0 & R & Rf & NR & NN). exists r0.
      pose proof (F b nb (or_introl (proj1 R))) as E. split; [split; rewrite E; apply R|]. split; [rewrite E; exact Rf|]. split; [exact NR|].
      intros d Hd. destruct (RD _ _ Hd) as (d0 & R0 & S0 & _).
      intro X. apply (NN d0 R0). clear -X S0. change REALM_NEW with 0 in *. lia.
  - intros p q b Hp Hq. destruct (N.eq_dec b a) as [->|nb].
    + destruct (N.eq_dec n 1) as [->|nn]; [|exfalso; apply (H0 ltac:(lia) p Hp)].
      destruct (H1 eq_refl) as ((p0 & _ & K) & _). rewrite (K p Hp), (K q Hq). reflexivity.
    + apply HC in Hp; [|exact nb]. apply HC in Hq; [|exact nb]. apply (mv_once _ _ _ M _ _ _ Hp Hq).
  - intros b Sb Rb. destruct (N.eq_dec b a) as [->|nb].
    + rewrite Ea in Rb. cbn [g_ref] in Rb. destruct (H1 Rb) as ((p0 & K & _) & _). eauto.
    + pose proof (F b nb (or_intror Sb)) as EF. rewrite EF in Sb, Rb. destruct (mv_used _ _ _ M b Sb Rb) as (p & K). exists p. apply HC; assumption.
  - intros b r0 R0. destruct (N.eq_dec b a) as [->|nb].
    + destruct R0 as [_ R0]. rewrite Ea in R0. injection R0 as <-. exact HP.
    + destruct R0 as [S0 R0]. pose proof (F b nb (or_intror S0)) as EF. rewrite EF in S0, R0. apply (mv_pend _ _ _ M b). split; assumption.
  - exact HA.
  - intros b d Hd. destruct (RD _ _ Hd) as (d0 & R0 & _ & F0).
    assert (E : rd_ctx d = rd_ctx d0) by (unfold rd_fixed in F0; congruence). rewrite E. apply (mv_roots _ _ _ M b d0 R0).
Qed.
End Keep.

Lemma chg_in : forall rd l u f n i m x, In x (chg rd l u f n i m) -> exists k e e', x = LEntry rd l k e e'.
Proof. intros rd l u f n i m x H. unfold chg in H. apply in_map_iff in H. destruct H as (k & <- & _). eauto. Qed.
Lemma chg_norec : forall rd l u f n i m, forallb (fun x => negb (rec_lab x)) (chg rd l u f n i m) = true.
Proof. intros. apply forallb_forall. intros x H. apply chg_in in H. destruct H as (k & e & e' & ->). reflexivity. Qed.

Lemma create_one : forall c gh G V gh' G' V' rd a d d' rc, Inv c gh G V -> geffs c gh G V [LRecCreate rd a d d' rc] gh' G' V' ->
  g_state (G a) = DELEGATED /\ G' a = mkG REC 0 (CRec rc) /\ forall z, z <> a -> g_state (G z) = REC \/ g_state (G' z) = REC -> G' z = G z.
Proof.
  intros c gh G V gh' G' V' rd a d d' rc I GE. inversion GE as [|? ? ? ? gh1 G1 V1 ? ? ? ? K1 K2]; subst. inversion K2 as [? ? ? ? ? HG HV|]; subst.
  assert (F : forall z, z <> a -> g_state (G z) = REC \/ g_state (G' z) = REC -> G' z = G z).
  { intros z nz Hz. pose proof (geff_gran _ _ _ _ _ _ _ _ I K1 z) as Q. unfold gchange in Q. rewrite <- HG in Q.
    destruct Q as [E|[(_ & E1 & _ & E2 & _)|[(E & _)|(_ & E1 & f & E2)]]]; [exact E| |contradiction|];
      exfalso; rewrite E2 in Hz; cbn [g_state] in Hz; destruct Hz; congruence. }
  split; [|split; [|exact F]]; inversion K1; subst; [assumption|]. rewrite HG. assumption.
Qed.

Lemma destroy_one : forall c gh G V gh' G' V' rd a rc, Inv c gh G V -> geffs c gh G V [LRecDestroy rd a rc] gh' G' V' ->
  G' a = mkG DELEGATED 0 czero /\ forall z, z <> a -> g_state (G z) = REC \/ g_state (G' z) = REC -> G' z = G z.
Proof.
  intros c gh G V gh' G' V' rd a rc I GE. inversion GE as [|? ? ? ? gh1 G1 V1 ? ? ? ? K1 K2]; subst. inversion K2 as [? ? ? ? ? HG HV|]; subst.
  assert (F : forall z, z <> a -> g_state (G z) = REC \/ g_state (G' z) = REC -> G' z = G z).
  { intros z nz Hz. pose proof (geff_gran _ _ _ _ _ _ _ _ I K1 z) as Q. unfold gchange, gone in Q. rewrite <- HG in Q.
    destruct Q as [E|[(_ & E1 & d & _ & E2)|[(E & _)|(_ & E1 & E2)]]]; [exact E| |contradiction|];
      exfalso; rewrite E2 in Hz; cbn [g_state] in Hz; destruct Hz; congruence. }
  split; [|exact F]. inversion K1; subst. rewrite HG. assumption.
Qed.

Lemma psci_pend : forall rc rt u st x rc' rt', psci_complete_request rc rt u st = Some (x, rc', rt') ->
  pend_ok rc /\ off_ok rc -> pend_ok rt /\ off_ok rt ->
  (pend_ok rc' /\ off_ok rc') /\ (pend_ok rt' /\ off_ok rt') /\ (u = true -> rt' = rt).
Proof.
  intros rc rt u st x rc' rt' H Pc Pt.
  assert (FC : forall y, pend_ok (finish_psci rc y) /\ off_ok (finish_psci rc y)).
  { intro y. destruct Pc as ((P1 & P2 & P3) & P4). split.
    - split; [exact P1|]. split.
      + intro Hh. change (r_host_call rc = true) in Hh. destruct (P2 Hh) as (Q1 & Q2 & _). split; [exact Q1|]. split; [exact Q2|].
        change (r_regs (finish_psci rc y) 1) with 0. split; [apply pow2_pos|reflexivity].
      + discriminate.
    - intro Hr. change (r_runnable rc = false) in Hr. split; [apply P4, Hr|reflexivity]. }
  assert (FT : r_runnable rt = false -> forall s entry ctx, let t := set_runnable (set_pc (set_reg (psci_reset_rec rt s) 0 ctx) entry) true in pend_ok t /\ off_ok t).
  { intros Hr s entry ctx. cbv zeta. destruct Pt as ((P1 & P2 & P3) & P4). destruct (P4 Hr) as [P5 P6]. split.
    - split; [apply mode_init|]. split.
      + intro Hh. change (r_host_call rt = true) in Hh. congruence.
      + intro Hh. change (r_psci_pending rt = true) in Hh. congruence.
    - discriminate. }
  unfold psci_complete_request in H. cbv zeta in H.
  assert (SAME : Some (RMI_ERROR_INPUT, rc, rt) = Some (x, rc', rt') ->
     (pend_ok rc' /\ off_ok rc') /\ (pend_ok rt' /\ off_ok rt') /\ (u = true -> rt' = rt)).
  { intro E. assert (rc' = rc) by congruence. assert (rt' = rt) by congruence. subst. auto. }
  destruct (negb (r_psci_pending rc)); [apply SAME, H|]. destruct (negb _); [apply SAME, H|]. destruct (negb _); [apply SAME, H|].
  destruct ((_ =? _) || (_ =? _)).
  - destruct (negb _ && negb _); [apply SAME, H|].
    unfold complete_psci_cpu_on in H. destruct u.
    + cbn [orb fst snd] in H. assert (rc' = finish_psci rc PSCI_RETURN_ALREADY_ON) by congruence. assert (rt' = rt) by congruence. subst. auto.
    + cbn [orb] in H. destruct (r_runnable rt) eqn:Er; cbn [fst snd] in H.
      * assert (rc' = finish_psci rc PSCI_RETURN_ALREADY_ON) by congruence. assert (rt' = rt) by congruence. subst. auto.
      * destruct (st =? PSCI_RETURN_DENIED); cbn [fst snd] in H.
        -- assert (rc' = finish_psci rc PSCI_RETURN_DENIED) by congruence. assert (rt' = rt) by congruence. subst. auto.
        -- match type of H with Some (_, ?a, ?b) = _ => assert (rc' = a) by congruence; assert (rt' = b) by congruence end. subst.
           split; [apply FC|]. split; [apply FT; reflexivity|discriminate].
  - destruct ((_ =? _) || (_ =? _)); [|discriminate]. destruct (negb _); [apply SAME, H|].
    match type of H with Some (_, ?a, ?b) = _ => assert (rc' = a) by congruence; assert (rt' = b) by congruence end. subst. auto.
Qed.

Section Cmd.
Variables (c : cfg) (h : hw) (gh : ghost) (m : mstate).
Hypothesis C : cfg_ok c.
Hypothesis M : MInv c gh m.
Let G := m_gr m.

(** The two conditions on RECs of [minv_keep] *)
Definition recs_kept (G' : N -> granule) : Prop :=
  (forall a, g_state (G a) = REC -> g_ref (G a) = 1 -> G' a = G a) /\
  (forall a r', is_rec G' a r' -> (pend_ok r' /\ off_ok r') /\ (g_ref (G' a) = 1 -> g_state (G a) = REC /\ g_ref (G a) = 1)).

Lemma kept_same : forall (P : N -> Prop) G', (forall a, P a \/ ~ P a) ->
  (forall a, ~ P a -> g_state (G a) = REC \/ g_state (G' a) = REC -> G' a = G a) ->
  (forall a, P a -> g_state (G a) = REC -> g_ref (G a) = 1 -> G' a = G a) ->
  (forall a r', P a -> is_rec G' a r' -> (pend_ok r' /\ off_ok r') /\ (g_ref (G' a) = 1 -> g_state (G a) = REC /\ g_ref (G a) = 1)) ->
  recs_kept G'.
Proof.
  intros P G' D H1 H2 H3. split; intro a; destruct (D a) as [Pa|Pa].
  - apply H2, Pa.
  - intros S _. apply H1; auto.
  - intros r' R. apply H3; assumption.
  - intros r' [S' M']. pose proof (H1 a Pa (or_intror S')) as E. rewrite E in S', M'. split; [apply (mv_pend _ _ _ M a); split; assumption|].
    rewrite E. auto.
Qed.

Lemma cmd_recs : forall k r gh' labs inv G' V', geffs c gh G (m_vmids m) labs gh' G' V' -> cmd_eff c gh G (m_vmids m) k r gh' labs inv -> recs_kept G'.
Proof.
  intros k r gh' labs inv G' V' GE K. pose proof (mv_inv _ _ _ M) as I.
  assert (NR : forallb (fun l => negb (rec_lab l)) labs = true -> recs_kept G').
  { intro F. apply (kept_same (fun _ => False)); [tauto| |tauto|tauto]. intros a _. apply (recs_frame _ _ _ _ _ _ _ _ GE I F). }
  unfold cmd_eff in K. cbv zeta in K.
  destruct k as [| | | | | | | | | | |ps rd a pa|a| | | | | |ca ta st| | |rd base top|rd a base top].
  all: try (destruct K as [(_ & (-> & _) & _)|(_ & K)]; [apply NR; reflexivity|]).
  all: try (repeat match goal with H : exists _, _ |- _ => destruct H | H : _ /\ _ |- _ => destruct H end; subst; apply NR; reflexivity).
  - (* REC_CREATE *)
    destruct K as (_ & p & d & rc & _ & R & _ & _ & _ & _ & _ & _ & Erc & ->).
    destruct (create_one _ _ _ _ _ _ _ _ _ _ _ _ I GE) as (Sa & Ea & F).
    apply (kept_same (fun z => z = a)).
    + intro z. destruct (N.eq_dec z a); auto.
    + exact F.
    + intros z -> S1. exfalso. unfold G in *. congruence.
    + intros z r' -> [_ R']. rewrite Ea in *. injection R' as <-. split; [|discriminate]. rewrite Erc.
      split; [split; [apply mode_init|split; discriminate]|]. intro. split; reflexivity.
  - (* REC_DESTROY *)
    destruct K as (_ & rc & R & Rf & ->).
    destruct (destroy_one _ _ _ _ _ _ _ _ _ _ I GE) as (Ea & F).
    apply (kept_same (fun z => z = a)).
    + intro z. destruct (N.eq_dec z a); auto.
    + exact F.
    + intros z -> S1 Ra. exfalso. congruence.
    + intros z r' -> [S' _]. exfalso. rewrite Ea in S'. discriminate S'.
  - (* PSCI_COMPLETE *)
    destruct K as (_ & [(_ & -> & _)|(rc & rt & rc' & rt' & n & Rc & Rt & Fc & P & ->)]); [apply NR; reflexivity|].
    inversion GE as [|? ? ? ? gh1 G1 V1 ? ? ? ? K1 K2]; subst. inversion K2 as [|? ? ? ? gh2 G2 V2 ? ? ? ? K3 K4]; subst. inversion K4 as [? ? ? ? ? HG HV|]; subst.
    destruct (rec_one _ _ _ _ _ _ _ _ _ _ _ I K1) as (_ & E1 & O1 & _). pose proof (geff_inv _ _ _ _ _ _ _ _ I K1) as I1.
    destruct (rec_one _ _ _ _ _ _ _ _ _ _ _ I1 K3) as (_ & E2 & O2 & _).
    destruct (psci_pend _ _ _ _ _ _ _ P (mv_pend _ _ _ M _ _ Rc) (mv_pend _ _ _ M _ _ Rt)) as (Q1 & Q2 & Q3).
    assert (Et : G' ta = mkG REC (g_ref (G ta)) (CRec rt')) by (rewrite HG, O2 by auto; exact E1).
    assert (Ec : G' ca = mkG REC 0 (CRec rc')) by (rewrite HG; exact E2).
    apply (kept_same (fun z => z = ta \/ z = ca)).
    + intro z. destruct (N.eq_dec z ta); [auto|]. destruct (N.eq_dec z ca); [auto|]. right. tauto.
    + intros z nz _. rewrite HG, O2 by tauto. apply O1. tauto.
    + intros z [->| ->] Sa Ra; [|congruence]. rewrite Et, (Q3 ltac:(rewrite Ra; reflexivity)), Ra. destruct Rt as [St Mt].
      revert St Mt Ra. destruct (G ta) as [s n0 m0]. cbn. congruence.
    + intros z r' [->| ->] [_ R'].
      * rewrite Et in *. injection R' as <-. split; [exact Q2|]. cbn [g_ref]. intro. split; [apply Rt|assumption].
      * rewrite Ec in *. injection R' as <-. split; [exact Q1|]. discriminate.
  - (* RTT_INIT_RIPAS *)
    destruct K as (_ & d & wi & n & _ & _ & _ & _ & _ & _ & _ & _ & ->). apply NR. rewrite forallb_app, chg_norec. reflexivity.
  - (* RTT_SET_RIPAS *)
    destruct K as (d & rc & wi & n & K). cbv zeta in K. destruct K as (_ & R & _ & Rf & _ & _ & _ & _ & _ & -> & _).
    destruct (rec_last _ _ _ _ _ _ _ _ _ _ _ _ GE I) as (Ea & _ & _).
    apply (kept_same (fun z => z = a)).
    + intro z. destruct (N.eq_dec z a); auto.
    + intros z nz. apply (only_rec_frame _ _ _ _ _ _ _ _ a GE I); [|exact nz]. apply Forall_app. split.
      * apply Forall_forall. intros x Hx. apply chg_in in Hx. destruct Hx as (k0 & e & e' & ->). left. reflexivity.
      * constructor; [right; eauto|constructor].
    + intros z -> Sa Ra. exfalso. congruence.
    + intros z r' -> [_ R']. rewrite Ea in *. injection R' as <-. split; [|discriminate].
      destruct (mv_pend _ _ _ M _ _ R) as ((P1 & P2 & P3) & P4). split; [split; [exact P1|split; [|exact P3]]|exact P4].
      intro Hh. destruct (P2 Hh) as (Q1 & Q2). split; [exact Q1|exact Q2].
Qed.
End Cmd.
