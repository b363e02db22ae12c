(** What single steps do to realm descriptors; what is destroyed is not in use *)
From Coq Require Import NArith ZArith List Bool Lia ZifyBool ZifyN.
From Verif Require Import Bits S2tte S2tteFacts State Granule Wp RecFields Measure RmiRtt RmiRealm Psci RmiRec Gic Esr Rsi RecRun
  Arch ArchFacts Mmu Machine Spec SpecStep SpecExit Inv InvTree MmuFacts InvStep InvStep2 InvStep3 Effects Frames CmdLib CmdData CmdRipas
  CmdRec CmdRealm CmdRsi2 CmdRun CmdRun2 CmdAll MInv MStep View StepView Own ExitFacts Step.
Import ListNotations.
Local Open Scope N_scope.

(* ------------------------------------------------------------------ *)
(** * Destroyed objects *)

Lemma cmd_done_eff : forall c h m o m' rp k r, next c h m o m' rp -> done o rp k r -> exists gh gh' labs inv,
  MInv c gh m /\ MInv c gh' m' /\ geffs c gh (m_gr m) (m_vmids m) labs gh' (m_gr m') (m_vmids m') /\
  cmd_eff c gh (m_gr m) (m_vmids m) k r gh' labs inv /\ x0 r = RMI_SUCCESS /\
  m_tlb m' = invals inv (m_tlb m) /\ m_cpu m' = m_cpu m /\ m_att m' = att_after k r (m_att m).
Proof.
  intros c h m o m' rp k r H (p & -> & -> & OK). destruct (next_good _ _ _ _ _ _ H) as (gh & gh' & labs & M & M' & GE & OE).
  destruct OE as (_ & r0 & inv & E & K & T). injection E as <-. exists gh, gh', labs, inv. auto 10.
Qed.

Lemma destroyed_realm : forall c h m o m' rp rd r, next c h m o m' rp -> done o rp (KRealmDestroy rd) r -> exists d, realm m rd d /\
  (forall a rc, rec_is m a rc -> r_g_rd rc <> rd) /\
  (forall l t b, table_of (m_gr m) (rd_ctx d) l t b -> exists k, k < num_root_rtts (rd_ctx d) /\ b = g_rtt (rd_ctx d) + k * 4096) /\
  (forall ipa, page_granule (page_at (m_gr m) (rd_ctx d) ipa) = None).
Proof.
  intros c h m o m' rp rd r H D. pose proof H as (RC & _). destruct (cmd_done_eff _ _ _ _ _ _ _ _ H D) as (gh & gh' & labs & inv & M & M' & GE & K & OK & _).
  pose proof (mv_inv _ _ _ M) as I. destruct K as [(NO & _)|(_ & _ & d & R & Z0 & ZK & ->)]; [contradiction|]. exists d. split; [exact R|].
  assert (RT : forall k i, k < num_root_rtts (rd_ctx d) -> i < 512 -> counted (ent gh (g_rtt (rd_ctx d) + k * 4096) i) = false).
  { intros k i Hk Hi. pose proof (inv_own _ _ _ _ I _ _ _ _ _ (i_root _ _ _ _ I _ _ _ R Hk) R) as T.
    pose proof (t_ref _ _ _ _ _ _ _ T) as E. rewrite (ZK k Hk) in E. symmetry in E. rewrite cnt_0 in E. apply E, Hi. }
  assert (OW : forall b l t, own gh b = Some (rd, l, t) -> l = s2_sl (rd_ctx d) /\ t < num_root_rtts (rd_ctx d) /\ b = g_rtt (rd_ctx d) + t * 4096).
  { intros b l t O. apply (own_of _ _ _ _ I _ _ R) in O. induction O as [k Hk|l t a i w b T IH Hi Hw Hd]; [auto|]. exfalso.
    destruct IH as (-> & Ht & ->). pose proof (i_root _ _ _ _ I _ _ _ R Ht) as O. rewrite (tt_read_entry _ _ _ _ I _ _ _ _ _ _ O R Hi) in Hw. injection Hw as <-.
    pose proof (RT t i Ht Hi) as C0. pose proof (inv_own _ _ _ _ I _ _ _ _ _ O R) as TO. destruct (t_entries _ _ _ _ _ _ _ TO i Hi) as [VE _].
    pose proof (ctx_sl _ (inv_ctx _ _ _ _ I _ _ R)) as SL.
    rewrite arch_decode_enc in Hd by (try assumption; lia). destruct (ent gh (g_rtt (rd_ctx d) + t * 4096) i); try discriminate. }
  split.
  - intros a rc RR E. destruct (rd_counts _ _ _ RC _ _ R) as (L & _ & IN & EL). rewrite Z0 in EL. destruct L as [|b L]; [|cbn in EL; lia].
    apply (in_nil (a := a)). apply IN. eauto.
  - split.
    + intros l t b T. apply (of_own _ _ _ _ I _ _ _ _ _ R) in T. apply OW in T. destruct T as (_ & T1 & T2). eauto.
    + intro ipa. destruct (page_granule _) as [pa|] eqn:P; [|reflexivity]. exfalso.
      destruct (granule_dmap _ _ _ _ I _ _ _ _ R P) as (_ & _ & DM & _).
      destruct (i_dmap _ _ _ _ I _ _ _ DM) as (_ & l & b & pa0 & O & A & _). apply OW in O. destruct O as (-> & T1 & ->).
      pose proof (RT _ ((ipa / 4096 / pg (s2_sl (rd_ctx d))) mod 512) T1 (mod512_lt _)) as C0.
      match type of A with asg ?e = _ => change (counted e = false) in C0; destruct e; discriminate end.
Qed.

Lemma destroyed_rec : forall c h m o m' rp a r, next c h m o m' rp -> done o rp (KRecDestroy a) r -> (exists rc, rec_is m a rc) /\ forall p, ~ executes m p a.
Proof.
  intros c h m o m' rp a r H D. pose proof H as (RC & _). destruct (cmd_done_eff _ _ _ _ _ _ _ _ H D) as (gh & gh' & labs & inv & M & M' & GE & K & OK & _).
  destruct K as [(NO & _)|(_ & _ & rc & R & Z0 & ->)]; [contradiction|]. split; [exists rc; exact R|].
  destruct (rec_counts _ _ _ RC _ _ R) as [(E & _)|(_ & E)]; [congruence|exact E].
Qed.

Lemma destroyed_rtt : forall c h m o m' rp rd ipa ul r, next c h m o m' rp -> done o rp (KRttDestroy rd ipa ul) r -> exists d, realm m rd d /\
  table_of (m_gr m) (rd_ctx d) (sgn64 ul) (ipa / 2 ^ arch_lsb (sgn64 ul - 1)) (x1 r) /\
  live_count (m_gr m) (enable_lpa2 (rd_ctx d)) (sgn64 ul) (x1 r) = 0.
Proof.
  intros c h m o m' rp rd ipa ul r H D. destruct (cmd_done_eff _ _ _ _ _ _ _ _ H D) as (gh & gh' & labs & inv & M & M' & GE & K & OK & _).
  pose proof (mv_inv _ _ _ M) as I. destruct K as [(NO & _)|(_ & d & e' & wi & R & Hl & _ & _ & -> & _)]; [contradiction|]. exists d. split; [exact R|].
  inversion GE as [|? ? ? ? gh1 G1 V1 ? ? ? ? X1 X2]; subst. inversion X1; subst.
  match goal with O : own gh ?a = Some (rd, (sgn64 ul - 1)%Z, _), Hi : _ < 512, E : ent gh ?a _ = ETable _ |- _ => 
    destruct (own_child _ _ _ _ I _ _ _ _ _ _ O Hi E) as (Ob & _) end. replace (sgn64 ul - 1 + 1)%Z with (sgn64 ul) in Ob by lia.
  pose proof (ctx_sl _ (inv_ctx _ _ _ _ I _ _ R)) as SL.
  rewrite arch_lsb_eq by lia. change (2 ^ lvl_lsb (sgn64 ul - 1)) with (ms (sgn64 ul - 1)).
  match goal with E : _ = ipa / ms _ |- _ => rewrite <- E end.
  split; [eapply own_of; eassumption|]. erewrite <- (live_count_ref _ _ _ _ I); [|exact R|exact Ob]. assumption.
Qed.

(* ------------------------------------------------------------------ *)
(** * Realm descriptors *)

Lemma gch_rd : forall c lab a g g' d, gchange c lab a g g' -> g_state g = RD -> g_mem g = CRd d ->
  (g_state g' = RD /\ exists d', g_mem g' = CRd d' /\ (d' = d \/ lab = LRd a d d' \/ exists r rc, lab = LRecCreate a r d d' rc)) \/
  (exists d0, lab = LRealmDestroy a d0).
Proof.
  intros c lab a g g' d [->|H] S M; [left; split; [exact S|eauto]|].
  destruct lab;
    repeat match goal with
    | H : _ \/ _ |- _ => destruct H
    | H : _ /\ _ |- _ => destruct H
    | H : exists _, _ |- _ => destruct H
    | H : rtt_upd _ _ |- _ => unfold rtt_upd in H
    | H : gone _ _ |- _ => unfold gone in H
    | H : fr _ |- _ => apply fr_state in H
    | H : word_change _ _ |- _ => unfold word_change in H
    end; try congruence; subst.
  - left. split; [reflexivity|]. eexists. split; [reflexivity|]. right. left. congruence.
  - left. split; [reflexivity|]. eexists. split; [reflexivity|]. right. right. do 2 eexists. f_equal; congruence.
  - left. split; [reflexivity|]. eexists. split; [reflexivity|]. left. congruence.
  - right. eauto.
Qed.

(** Effects that leave realm descriptors alone *)
Definition rd_still (lab : label) : bool := match lab with LRd _ _ _ | LRecCreate _ _ _ _ _ | LRealmDestroy _ _ => false | _ => true end.
Lemma gchs_still : forall c labs a g g' d, gchanges c labs a g g' -> forallb rd_still labs = true -> g_state g = RD -> g_mem g = CRd d ->
  g_state g' = RD /\ g_mem g' = CRd d.
Proof.
  intros c labs. induction labs as [|lab labs IH]; intros a g g' d H F S M; [cbn in H; subst; auto|].
  destruct H as (g1 & H1 & H2). cbn [forallb] in F. apply andb_prop in F. destruct F as [F1 F2].
  destruct (gch_rd _ _ _ _ _ _ H1 S M) as [(S1 & d1 & M1 & [->|[->|(r & rc & ->)]])|(d0 & ->)]; try discriminate F1.
  eapply IH; eassumption.
Qed.
Lemma chg_still : forall rd l u es m n i, forallb rd_still (chg rd l u es n i m) = true.
Proof.
  intros. apply forallb_forall. intros x IN. apply chg_in in IN. destruct IN as (? & ? & ? & ->). reflexivity.
Qed.

(** The ways in which a realm descriptor changes *)
Inductive rdchg (c : cfg) (m : mstate) (o : op) (rp : reply) (a : N) (d : rdesc) : rdesc -> Prop :=
| rc_data : forall ok data ipa src fl r f, done o rp (KDataCreate ok a data ipa src fl) r -> rd_state d = REALM_NEW ->
    host_page (m_gr m) src ok = Some f ->
    rdchg c m o rp a d (set_meas d RIM_MEASUREMENT_SLOT
      (measurement_data_granule_measure c (rd_meas d RIM_MEASUREMENT_SLOT) (rd_algorithm d) f ipa fl))
| rc_ripas : forall base top r gh wi n, done o rp (KRttInitRipas a base top) r -> rd_state d = REALM_NEW ->
    MInv c gh m -> walk_res gh (rd_ctx d) a base 3 wi -> ripas_range (ent gh (w_llt wi)) init_e (w_level wi) (w_index wi) base top (x1 r) n ->
    rdchg c m o rp a d (set_meas d RIM_MEASUREMENT_SLOT
      (init_rim c (rd_algorithm d) (ms (w_level wi)) n base (rd_meas d RIM_MEASUREMENT_SLOT)))
| rc_activate : forall r, done o rp (KRealmActivate a) r -> rd_state d = REALM_NEW -> rdchg c m o rp a d (set_rd_state d REALM_ACTIVE)
| rc_rec : forall p rec pa r, done o rp (KRecCreate (Some p) a rec pa) r -> rd_state d = REALM_NEW ->
    rec_mpidr_to_idx (rp_mpidr p) = rd_rec_count d ->
    rdchg c m o rp a d (created_rec_rd c d p (N.testbit (rp_flags p) 0))
| rc_extend : forall b r, rsi_call m o b r RSI_EXTEND -> r_g_rd r = a -> 1 <= r_regs r 1 < 5 -> r_regs r 2 <= 64 ->
    rdchg c m o rp a d (set_meas d (r_regs r 1)
      (c_hash c (rd_algorithm d) (rd_meas d (r_regs r 1) :: extend_bytes (r_regs r) (r_regs r 2))))
| rc_off : forall b r, psci_call m o b r PSCI_OFF \/ psci_call m o b r PSCI_RESET -> r_g_rd r = a ->
    rdchg c m o rp a d (set_rd_state d REALM_SYSTEM_OFF).

Lemma ec_smc : forall e, esr_ec e = EC_SMC -> bits e 31 26 = 23.
Proof.
  intros e H. pose proof (esr_ec_field e 23 eq_refl) as E. apply N.eqb_eq in H. change EC_SMC with (EC 23) in H. rewrite H in E. symmetry in E. apply N.eqb_eq in E. exact E.
Qed.

Lemma bit0 : forall f, negb (N.land f 1 =? 0) = N.testbit f 0.
Proof.
  intro f. change 1 with (N.ones 1) at 1. rewrite N.land_ones. change (2 ^ 1) with 2. rewrite <- N.bit0_mod. destruct (N.testbit f 0); reflexivity.
Qed.

Lemma rd_step : forall c h m o m' rp, next c h m o m' rp -> forall a d d', realm m a d -> realm m' a d' -> d' = d \/ rdchg c m o rp a d d'.
Proof.
  intros c h m o m' rp H a d d' [S1 M1] [S2 M2]. destruct (next_good _ _ _ _ _ _ H) as (gh & gh' & labs & M & M' & GE & OE). clear H.
  pose proof (mv_inv _ _ _ M) as I. pose proof (geffs_gran _ _ _ _ _ _ _ _ GE I a) as GC. clear GE.
  assert (ST : forallb rd_still labs = true -> d' = d).
  { intro F. destruct (gchs_still _ _ _ _ _ _ GC F S1 M1) as (_ & E). rewrite M2 in E. injection E as ->. reflexivity. }
  assert (ONE : forall pre lab, labs = pre ++ [lab] -> forallb rd_still pre = true -> d' = d \/ lab = LRd a d d' \/ exists r rc, lab = LRecCreate a r d d' rc).
  { intros pre lab -> F. apply gchanges_app in GC. destruct GC as (g1 & G1 & G2). destruct (gchs_still _ _ _ _ _ _ G1 F S1 M1) as (S3 & M3).
    apply gchanges_one in G2. destruct (gch_rd _ _ _ _ _ _ G2 S3 M3) as [(_ & d1 & E & K)|(d0 & ->)].
    - rewrite M2 in E. injection E as <-. exact K.
    - destruct G2 as [E|[(_ & _ & _ & _ & E)|(_ & _ & E)]]; rewrite E in *; [|discriminate S2|discriminate S2]. left. congruence. }
  destruct o; cbn [op_eff] in OE; cbv zeta in OE.
  - destruct OE as (_ & r & inv & -> & K & _). unfold cmd_eff in K. cbv zeta in K.
    assert (DN : x0 r = RMI_SUCCESS -> done (OCmd p k) (Reply r) k r) by (intro; exists p; auto).
    destruct k.
    all: try (destruct K as [(_ & (-> & _) & _)|(OK & K)]; [left; apply ST; reflexivity|]; specialize (DN OK)).
    all: try (left; apply ST; destruct K as ((-> & _) & _); reflexivity).
    all: try solve [left; apply ST;
      repeat match goal with H : exists _, _ |- _ => destruct H | H : _ /\ _ |- _ => destruct H end; subst labs; reflexivity].
    + destruct K as (_ & d0 & e & f & R & Sn & _ & _ & _ & HP & _ & _ & _ & ->). destruct GC as (g1 & G1 & G2).
      destruct (gch_rd _ _ _ _ _ _ G1 S1 M1) as [(S3 & d1 & M3 & E)|(? & E)]; [|discriminate E].
      destruct (gchs_still _ _ _ _ _ _ G2 eq_refl S3 M3) as (_ & E2). rewrite M2 in E2. injection E2 as ->.
      destruct E as [->|[E|(? & ? & E)]]; [left; reflexivity|right|discriminate E]. injection E as -> <- <-. eapply rc_data; eassumption.
    + destruct K as (_ & d0 & R & Sn & ->). destruct (ONE [] _ eq_refl eq_refl) as [E|[E|(? & ? & E)]]; [auto|right|discriminate E].
      injection E as -> <- <-. eapply rc_activate; eassumption.
    + destruct K as (_ & d0 & R & _ & _ & ->). destruct (ONE [] _ eq_refl eq_refl) as [E|[E|(? & ? & E)]]; [auto|discriminate E..].
    + destruct K as (_ & q & d0 & rc & -> & R & Sn & _ & _ & _ & IX & _ & -> & ->).
      destruct (ONE [] _ eq_refl eq_refl) as [E|[E|(? & ? & E)]]; [auto|discriminate E|]. right. injection E as -> _ <- <- _.
      change (r_runnable (new_rec _ _ _ _ _ _ _)) with (negb (N.land (rp_flags q) 1 =? 0)). rewrite bit0. eapply rc_rec; eassumption.
    + destruct K as (_ & [(_ & -> & _)|(rc & rt & rc' & rt' & _ & _ & _ & _ & _ & ->)]); left; apply ST; reflexivity.
    + destruct K as (_ & d0 & wi & n & R & Sn & _ & _ & _ & _ & W & RG & ->).
      destruct (ONE _ _ eq_refl (chg_still _ _ _ _ _ _ _)) as [E|[E|(? & ? & E)]]; [auto|right|discriminate E].
      injection E as -> <- <-. eapply rc_ripas; eassumption.
    + destruct K as (d0 & rc & wi & n & _ & _ & _ & _ & _ & _ & _ & _ & _ & -> & _). left. apply ST. rewrite forallb_app, chg_still. reflexivity.
  - destruct OE as (_ & -> & out & EO & _). apply ent_labs in EO. left. apply ST.
    destruct EO as [->|(r & d0 & r' & _ & _ & _ & _ & _ & [->|(r1 & hl & n & -> & HL)])]; try reflexivity.
    cbn [forallb rd_still]. rewrite forallb_app. destruct HL as [->|(_ & g & f' & -> & _)]; reflexivity.
  - destruct OE as (-> & ru & r & d0 & out & at_ & simd & CP & RR & R & RO & _). apply run_labs in RO. destruct RO as (pre & r' & n & -> & P).
    assert (EX : executes m p (ru_rec ru)) by (exists ru; auto).
    assert (SM : ev_exc ev = ExcSync -> esr_ec (ev_esr ev) = EC_SMC -> smc m (OExit p ev fi tm) (ru_rec ru) r).
    { intros X1 X2. exists p, ev, fi, tm. split; [reflexivity|]. split; [exact EX|]. split; [exact RR|]. split; [exact X1|]. apply ec_smc, X2. }
    cbn [v_rec] in P.
    destruct P as [->|[(g & f' & -> & _)|(X1 & X2 & [(F & i & -> & Hi & Hs & ->)|(F & ->)])]]; try (left; apply ST; reflexivity); specialize (SM X1 X2).
    + destruct GC as (g1 & G1 & G2).
      destruct (gch_rd _ _ _ _ _ _ G1 S1 M1) as [(S3 & d1 & M3 & E)|(? & E)]; [|discriminate E].
      destruct (gchs_still _ _ _ _ _ _ G2 eq_refl S3 M3) as (_ & E2). rewrite M2 in E2. injection E2 as ->.
      destruct E as [->|[E|(? & ? & E)]]; [left; reflexivity|right|discriminate E]. injection E as E1 E2 E3. subst a. rewrite <- E3, <- E2.
      eapply rc_extend; [|reflexivity|exact Hi|exact Hs]. split; [exact SM|]. exact F.
    + destruct GC as (g1 & G1 & G2).
      destruct (gch_rd _ _ _ _ _ _ G1 S1 M1) as [(S3 & d1 & M3 & E)|(? & E)]; [|discriminate E].
      destruct (gchs_still _ _ _ _ _ _ G2 eq_refl S3 M3) as (_ & E2). rewrite M2 in E2. injection E2 as ->.
      destruct E as [->|[E|(? & ? & E)]]; [left; reflexivity|right|discriminate E]. injection E as E1 E2 E3. subst a. rewrite <- E3, <- E2.
      eapply rc_off; [|reflexivity]. destruct F as [F|F]; [left|right]; (split; [exact SM|exact F]).
  - destruct OE as (_ & _ & _ & ru & r & _ & _ & ->). left. apply ST. reflexivity.
  - destruct OE as (_ & _ & _ & ru & r & d0 & l & w & oa & ns & xn & f & _ & _ & _ & _ & _ & _ & _ & ->). left. apply ST. reflexivity.
  - destruct OE as (_ & _ & _ & ru & r & d0 & l & w & oa & ns & xn & f & _ & _ & _ & _ & _ & _ & _ & ->). left. apply ST. reflexivity.
  - destruct OE as (_ & _ & -> & _). left. apply ST. reflexivity.
  - destruct OE as (_ & _ & _ & ru & r & _ & _ & _ & _ & ->). left. apply ST. reflexivity.
  - destruct OE as (_ & _ & _ & f & _ & _ & ->). left. apply ST. reflexivity.
Qed.

Lemma rd_new : forall c h m o m' rp, next c h m o m' rp -> forall a d', realm m' a d' -> g_state (m_gr m a) <> RD ->
  exists p pa r, done o rp (KRealmCreate (Some p) a pa) r /\ d' = created_rd c p /\ realm_params_valid c p = true.
Proof.
  intros c h m o m' rp H a d' [S2 M2] N. assert (NE : g_state (m_gr m' a) <> g_state (m_gr m a)) by congruence.
  pose proof (moved _ _ _ _ _ _ _ H NE) as MV. rewrite S2 in MV. inversion MV; subst.
  destruct (cmd_done_eff _ _ _ _ _ _ _ _ H H2) as (gh & gh' & labs & inv & M & M' & GE & K & OK & _).
  destruct K as [(NO & _)|(_ & _ & q & -> & _ & HV & _ & _ & _ & _ & _ & ->)]; [contradiction|]. exists q, pa, r. split; [assumption|]. split; [|exact HV].
  inversion GE as [|? ? ? ? gh1 G1 V1 ? ? ? ? X1 X2]; subst. inversion X2 as [? ? ? ? ? HG HV2|]; subst. inversion X1; subst.
  rewrite HG in M2. match goal with E : G1 a = _ |- _ => rewrite E in M2 end. cbn in M2. congruence.
Qed.

Lemma set_meas_other : forall d i j v, i <> j -> rd_meas (set_meas d i v) j = rd_meas d j.
Proof. intros. cbn [rd_meas set_meas]. apply upd_other. congruence. Qed.

Lemma meas_step : forall c h m o m' rp, next c h m o m' rp -> forall a d d', realm m a d -> realm m' a d' ->
  (rd_state d <> REALM_NEW -> rd_meas d' 0 = rd_meas d 0) /\
  (forall i, 0 < i -> rd_meas d' i <> rd_meas d i -> exists b r, rsi_call m o b r RSI_EXTEND /\ r_g_rd r = a /\ r_regs r 1 = i).
Proof.
  intros c h m o m' rp H a d d' R R'. destruct (rd_step _ _ _ _ _ _ H a d d' R R') as [->|K]; [split; [reflexivity|intros i _ X; contradiction]|].
  destruct K as [ok data ipa src fl r f D Sn HP|base top r gh wi n D Sn|r D Sn|p rec pa r D Sn IX|b r C E Hi Hs|b r C E].
  - split; [congruence|]. intros i Hi X. rewrite set_meas_other in X; [contradiction|]. change RIM_MEASUREMENT_SLOT with 0. lia.
  - split; [congruence|]. intros i Hi X. rewrite set_meas_other in X; [contradiction|]. change RIM_MEASUREMENT_SLOT with 0. lia.
  - split; [congruence|]. intros i Hi X. contradiction.
  - split; [congruence|]. intros i Hi X. unfold created_rec_rd in X. destruct (N.testbit (rp_flags p) 0); cbn [rd_meas set_rd_rec_count] in X; [|contradiction].
    rewrite set_meas_other in X; [contradiction|]. change RIM_MEASUREMENT_SLOT with 0. lia.
  - split; [intros _; apply set_meas_other; lia|]. intros i _ X. destruct (N.eq_dec (r_regs r 1) i) as [Ei|Ei]; [eauto|].
    rewrite set_meas_other in X by exact Ei. contradiction.
  - split; [reflexivity|]. intros i _ X. contradiction.
Qed.

Lemma running : forall c h m, reachable c h m -> forall p a, executes m p a -> exists r d, rec_is m a r /\ realm m (r_g_rd r) d /\ rd_state d <> REALM_NEW.
Proof.
  intros c h m RC p a E. destruct (reach_minv _ _ _ RC) as (gh & M). apply exec_on in E. destruct (mv_run _ _ _ M _ _ E) as (r & R & _ & _ & NN).
  destruct (rec_realm _ _ _ RC _ _ R) as (d & RD1 & _). exists r, d. split; [exact R|]. split; [exact RD1|]. apply NN, RD1.
Qed.
Lemma smc_running : forall c h m o a r, reachable c h m -> smc m o a r -> exists d, realm m (r_g_rd r) d /\ rd_state d <> REALM_NEW.
Proof.
  intros c h m o a r RC (p & ev & fi & tm & _ & E & R & _). destruct (running _ _ _ RC _ _ E) as (r' & d & R' & RD1 & NN).
  destruct R as [_ K1], R' as [_ K2]. rewrite K1 in K2. injection K2 as <-. eauto.
Qed.

Lemma state_step : forall c h m o m' rp, next c h m o m' rp -> forall a d d', realm m a d -> realm m' a d' -> rd_state d' <> rd_state d ->
  (rd_state d = REALM_NEW /\ rd_state d' = REALM_ACTIVE /\ exists r, done o rp (KRealmActivate a) r) \/
  (rd_state d = REALM_ACTIVE /\ rd_state d' = REALM_SYSTEM_OFF /\ exists b r, (psci_call m o b r PSCI_OFF \/ psci_call m o b r PSCI_RESET) /\ r_g_rd r = a).
Proof.
  intros c h m o m' rp H a d d' R R' X. pose proof H as (RC & _). destruct (rd_step _ _ _ _ _ _ H a d d' R R') as [->|K]; [contradiction|].
  destruct K as [ok data ipa src fl r f D Sn HP|base top r gh wi n D Sn|r D Sn|p rec pa r D Sn IX|b r C E Hi Hs|b r C E]; try (exfalso; apply X; reflexivity).
  - left. split; [exact Sn|]. split; [reflexivity|eauto].
  - exfalso. apply X. unfold created_rec_rd. destruct (N.testbit (rp_flags p) 0); reflexivity.
  - right. split; [|split; [reflexivity|eauto]].
    assert (SM : smc m o b r) by (destruct C as [C|C]; apply C). destruct (smc_running _ _ _ _ _ _ RC SM) as (d0 & R0 & NN). rewrite E in R0.
    assert (d0 = d) as -> by (destruct R as [_ K1], R0 as [_ K2]; congruence).
    destruct (reach_minv _ _ _ RC) as (gh & M). pose proof (inv_rd_ok _ _ _ _ (mv_inv _ _ _ M) _ _ R) as (_ & LE & _).
    cbn [rd_state set_rd_state] in X. change REALM_ACTIVE with 1. change REALM_NEW with 0 in NN. change REALM_SYSTEM_OFF with 2 in X. lia.
Qed.

Lemma built_new : forall c h m o m' rp k r rd, next c h m o m' rp -> done o rp k r ->
  match k with KDataCreate _ x _ _ _ _ | KRecCreate _ x _ _ | KRttInitRipas x _ _ | KRealmActivate x => x = rd | _ => False end ->
  exists d, realm m rd d /\ rd_state d = REALM_NEW.
Proof.
  intros c h m o m' rp k r rd H D E. destruct (cmd_done_eff _ _ _ _ _ _ _ _ H D) as (gh & gh' & labs & inv & M & M' & GE & K & OK & _).
  destruct k; try contradiction; subst rd; destruct K as [(NO & _)|(_ & K)]; try contradiction.
  - destruct K as (_ & d & e & f & R & Sn & _). eauto.
  - destruct K as (_ & d & R & Sn & _). eauto.
  - destruct K as (_ & q & d & rc & -> & R & Sn & _). exists d. auto.
  - destruct K as (_ & d & wi & n & R & Sn & _). eauto.
Qed.

Lemma entered_active : forall c h m p a ra en fi tm m', next c h m (OEnter p a ra en fi tm) m' Entered ->
  executes m' p a /\ (forall q, ~ executes m q a) /\ exists r d, rec_is m a r /\ realm m (r_g_rd r) d /\ rd_state d = REALM_ACTIVE /\ r_runnable r = true.
Proof.
  intros c h m p a ra en fi tm m' H. pose proof H as (RC & _). destruct (next_good _ _ _ _ _ _ H) as (gh & gh' & labs & M & M' & GE & OE).
  destruct OE as (Ep & -> & out & EO & _ & _ & E). destruct out as [ret x|x]; destruct E as (E1 & E2); [discriminate E1|].
  split. { exists (mkRun a x false). rewrite E2, upd_same. auto. }
  assert (K : forall r d, is_rec (m_gr m) a r -> g_ref (m_gr m a) = 0 -> is_rd (m_gr m) (r_g_rd r) d -> rd_state d = REALM_ACTIVE -> r_runnable r = true ->
     (forall q, ~ executes m q a) /\ exists r d, rec_is m a r /\ realm m (r_g_rd r) d /\ rd_state d = REALM_ACTIVE /\ r_runnable r = true).
  { intros r d R Z0 R1 S1 Rn. split; [|exists r, d; auto 6]. destruct (rec_counts _ _ _ RC _ _ R) as [(E & _)|(_ & E)]; [congruence|exact E]. }
  unfold answer in EO. inversion EO; subst; try (destruct (fi_wok fi); discriminate). eapply K; eassumption.
Qed.

Lemma minv_same : forall c gh gh' m m', MInv c gh m -> MInv c gh' m' -> m_cpu m' = m_cpu m ->
  (forall a, m_locks m' a = m_locks m a) /\ (forall p z, m_slots m' p z = m_slots m p z).
Proof.
  intros c gh gh' m m' M M' E. split.
  - intro a. rewrite (mv_locks _ _ _ M a), (mv_locks _ _ _ M' a). reflexivity.
  - intros p z. rewrite (mv_slots _ _ _ M), (mv_slots _ _ _ M'), E. reflexivity.
Qed.

Lemma fail_same : forall c h m p k m' r, next c h m (OCmd p k) m' (Reply r) -> x0 r <> RMI_SUCCESS -> same m m' \/
  exists ca ta rc rt, k = KPsciComplete ca ta PSCI_RETURN_DENIED /\ rec_is m ca rc /\ rec_is m ta rt /\
    x0 r = RMI_ERROR_INPUT /\ r_psci_pending rc = true /\ (exists rc', rec_is m' ca rc' /\ r_psci_pending rc' = false) /\
    (r_runnable rt = true \/ exists q, executes m q ta) /\
    (forall a, a <> ca -> m_gr m' a = m_gr m a) /\ (forall v, m_vmids m' v = m_vmids m v) /\ m_tlb m' = m_tlb m /\ m_cpu m' = m_cpu m /\ (forall a, m_att m' a = m_att m a).
Proof.
  intros c h m p k m' r H NZ. pose proof H as (RC & _). destruct (next_good _ _ _ _ _ _ H) as (gh & gh' & labs & M & M' & GE & OE).
  destruct OE as (_ & r0 & inv & E & K & ET & EC & EA). injection E as <-.
  assert (AT : forall a, m_att m' a = m_att m a).
  { intro a. rewrite EA. unfold att_after. destruct k; try reflexivity. destruct (N.eqb_spec (x0 r) RMI_SUCCESS); [contradiction|reflexivity]. }
  assert (SM : labs = [] -> inv = [] -> same m m').
  { intros -> ->. inversion GE as [? ? ? ? ? HG HV|]; subst. destruct (minv_same _ _ _ _ _ M M' EC) as (E1 & E2). unfold same. auto 8. }
  unfold cmd_eff in K. cbv zeta in K. destruct k; try (destruct K as [(_ & (-> & -> & _) & _)|(OK & _)]; [left; apply SM; reflexivity|contradiction]);
    try (destruct K as ((-> & -> & _) & _); left; apply SM; reflexivity).
  destruct K as (-> & [(_ & -> & _ & _)|(rc & rt & rc' & rt' & NCT & Rc & Rt & Z0 & P & ->)]); [left; apply SM; reflexivity|].
  inversion GE as [|? ? ? ? gh1 G1 V1 ? ? ? ? X1 X2]; subst. inversion X2 as [|? ? ? ? gh2 G2 V2 ? ? ? ? X3 X4]; subst. inversion X4 as [? ? ? ? ? HG HV|]; subst.
  inversion X1; subst. inversion X3; subst.
  assert (NORM : rt' = rt -> forall a, a <> calling -> m_gr m' a = m_gr m a).
  { intros -> a na. rewrite HG. match goal with F : forall z, z <> calling -> G2 z = _ |- _ => rewrite F by exact na end.
    destruct (N.eq_dec a target) as [->|nt]; [|auto]. destruct Rt as [T1 T2]. match goal with E : G1 target = _ |- _ => rewrite E end.
    destruct (m_gr m target) as [s1 n1 m1]. cbn in *. congruence. }
  assert (FAIL : rc' = rc -> rt' = rt -> same m m').
  { intros -> E. destruct (minv_same _ _ _ _ _ M M' EC) as (E1 & E2). repeat (split; [solve [assumption|intro; rewrite HV; reflexivity|auto]|] || idtac).
    split; [|auto 8]. intro a. destruct (N.eq_dec a calling) as [->|na]; [|apply NORM; assumption]. rewrite HG. destruct Rc as [T1 T2].
    match goal with E : G2 calling = _ |- _ => rewrite E end. destruct (m_gr m calling) as [s1 n1 m1]. cbn in *. congruence. }
  unfold psci_complete_request in P. cbv zeta in P.
  repeat match type of P with context [if ?b then Some (RMI_ERROR_INPUT, _, _) else _] =>
    destruct b eqn:?; [injection P as _ <- <-; left; apply FAIL; reflexivity|] end.
  destruct (_ || _) eqn:E1 in P.
  2:{ destruct (_ || _) in P; [|discriminate P].
      repeat match type of P with context [if ?b then Some (RMI_ERROR_INPUT, _, _) else _] =>
        destruct b eqn:?; [injection P as _ <- <-; left; apply FAIL; reflexivity|] end.
      injection P as P0 _ _. congruence. }
  repeat match type of P with context [if ?b then Some (RMI_ERROR_INPUT, _, _) else _] =>
    destruct b eqn:?; [injection P as _ <- <-; left; apply FAIL; reflexivity|] end.
  injection P as P0 P1 P2. destruct (_ && _) eqn:E2 in P0; [|congruence]. apply andb_prop in E2. destruct E2 as [E2 E3].
  apply N.eqb_eq in E2, E3. subst status.
  right. exists calling, target, rc, rt. split; [reflexivity|]. split; [exact Rc|]. split; [exact Rt|]. split; [congruence|].
  split; [match goal with E : negb (r_psci_pending rc) = false |- _ => destruct (r_psci_pending rc); [reflexivity|discriminate E] end|].
  unfold complete_psci_cpu_on in E3, P2.
  assert (AL : rt' = rt /\ (r_runnable rt = true \/ exists q, executes m q target)).
  { destruct (g_ref (m_gr m target) =? 0) eqn:Z; cbn [negb orb] in *.
    - destruct (r_runnable rt); [auto|]. exfalso. cbn in E3. discriminate E3.
    - cbn in P2. split; [congruence|]. right. destruct (rec_counts _ _ _ RC _ _ Rt) as [(_ & E)|(E & _)]; [exact E|]. rewrite E in Z. discriminate Z. }
  destruct AL as [AL1 AL2].
  split. { exists rc'. split; [|rewrite <- P1; reflexivity]. split; rewrite HG; match goal with E : G2 calling = _ |- _ => rewrite E end; reflexivity. }
  split; [exact AL2|]. split; [apply NORM, AL1|]. split; [exact HV|]. auto.
Qed.

(** Commands on a REC that is being executed *)
Lemma busy_rec : forall c h m o m' rp p a, next c h m o m' rp -> executes m p a ->
  (forall r, ~ done o rp (KRecDestroy a) r) /\ (forall t s r, ~ done o rp (KPsciComplete a t s) r) /\ (forall rd b t r, ~ done o rp (KRttSetRipas rd a b t) r) /\
  (forall q ra en fi tm, o = OEnter q a ra en fi tm -> exists code, rp = Exited code None /\ code <> RMI_SUCCESS /\ same m m').
Proof.
  intros c h m o m' rp p a H E. pose proof H as (RC & _). destruct (reach_minv _ _ _ RC) as (gh0 & M0). pose proof E as E0. apply exec_on in E0.
  destruct (mv_run _ _ _ M0 _ _ E0) as (rc & R & Rf & _ & _).
  split; [|split; [|split]].
  - intros r D. destruct (cmd_done_eff _ _ _ _ _ _ _ _ H D) as (gh & gh' & labs & inv & M & M' & GE & K & OK & _).
    destruct K as [(NO & _)|(_ & _ & rc2 & R2 & Z0 & _)]; [contradiction|]. congruence.
  - intros t s r D. destruct (cmd_done_eff _ _ _ _ _ _ _ _ H D) as (gh & gh' & labs & inv & M & M' & GE & K & OK & _).
    destruct K as (_ & [(X & _)|(rc1 & rt & rc' & rt' & _ & _ & _ & Z0 & _)]); [rewrite OK in X; discriminate X|congruence].
  - intros rd b t r D. destruct (cmd_done_eff _ _ _ _ _ _ _ _ H D) as (gh & gh' & labs & inv & M & M' & GE & K & OK & _).
    destruct K as [(NO & _)|(_ & d & rc1 & wi & n & K)]; [contradiction|]. cbv zeta in K. destruct K as (_ & _ & _ & Z0 & _). congruence.
  - intros q ra en fi tm ->. destruct (next_good _ _ _ _ _ _ H) as (gh & gh' & labs & M & M' & GE & OE).
    destruct OE as (Ep & -> & out & EO & T1 & T2 & EX). inversion EO as [code EB| | | |]; subst; try congruence.
    destruct EX as (-> & EC). exists code. split; [reflexivity|]. split.
    + destruct EB as [(-> & _)|[(-> & _)|(r & d & _ & _ & [(-> & _)|[(-> & _)|(-> & _)]])]]; discriminate.
    + inversion GE as [? ? ? ? ? HG HV|]; subst. destruct (minv_same _ _ _ _ _ M M' EC) as (K1 & K2). unfold same. rewrite T2. auto 10.
Qed.

Lemma created_rec : forall c h m o m' rp p rd a pa r, next c h m o m' rp -> done o rp (KRecCreate (Some p) rd a pa) r ->
  exists d d' rc, realm m rd d /\ realm m' rd d' /\ rec_is m' a rc /\ r_g_rd rc = rd /\ r_idx rc = host_index (rp_mpidr p) /\ r_idx rc = rd_rec_count d /\
    rd_rec_count d' = rd_rec_count d + 1.
Proof.
  intros c h m o m' rp p rd a pa r H D. destruct (cmd_done_eff _ _ _ _ _ _ _ _ H D) as (gh & gh' & labs & inv & M & M' & GE & K & OK & _).
  destruct K as [(NO & _)|(_ & _ & q & d & rc & E & R & Sn & _ & _ & _ & IX & _ & -> & ->)]; [contradiction|]. injection E as <-.
  inversion GE as [|? ? ? ? gh1 G1 V1 ? ? ? ? X1 X2]; subst. inversion X2 as [? ? ? ? ? HG HV2|]; subst. inversion X1; subst.
  exists d. eexists. eexists. split; [exact R|]. split.
  { split; rewrite HG; match goal with E : G1 rd = _ |- _ => rewrite E end; reflexivity. }
  split. { split; rewrite HG; match goal with E : G1 a = _ |- _ => rewrite E end; reflexivity. }
  split; [reflexivity|]. split; [rewrite <- Mpidr.to_idx_fields; symmetry; exact IX|]. split; [reflexivity|]. assumption.
Qed.

Lemma realm_appears : forall c h m o m' rp, next c h m o m' rp -> forall a d', realm m' a d' -> g_state (m_gr m a) <> RD ->
  exists p pa r, done o rp (KRealmCreate (Some p) a pa) r /\ rd_state d' = REALM_NEW /\ rd_rec_count d' = 0 /\
    rd_ctx d' = mkCtx (p_s2sz p) (p_rtt_level_start p) (p_rtt_num_start p) (p_rtt_base p) (p_vmid p) (is_lpa2_requested p).
Proof.
  intros c h m o m' rp H a d' R N. destruct (rd_new _ _ _ _ _ _ H a d' R N) as (p & pa & r & D & -> & _). exists p, pa, r.
  split; [exact D|]. split; [reflexivity|]. split; reflexivity.
Qed.
