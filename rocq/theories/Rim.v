(** Proofs about the realm initial measurement. *)
From Coq Require Import NArith ZArith List Bool Lia ZifyBool ZifyN.
From Verif Require Import Bits S2tte S2tteFacts State Granule Wp RecFields Measure RmiRtt RmiRealm Psci RmiRec Gic Esr Rsi RecRun
  Arch ArchFacts Mmu Machine Spec SpecStep SpecTables SpecRim Inv InvTree MmuFacts InvStep InvStep2 InvStep3 Effects Frames CmdLib CmdData CmdRipas
  CmdRtt CmdFold CmdRtt2 CmdNs CmdRec CmdRealm CmdRsi2 CmdRun CmdRun2 CmdAll MInv MStep View StepView Own Step Step2 Tables.
Import ListNotations.
Local Open Scope N_scope.

(** Effects that set the descriptor *)
Lemma lrd_sets : forall c gh G V gh' G' V' rd d d', geff c gh G V (LRd rd d d') gh' G' V' ->
  g_state (G' rd) = RD /\ g_mem (G' rd) = CRd d' /\ is_rd G rd d.
Proof. intros c gh G V gh' G' V' rd d d' H. inversion H; subst. match goal with E : G' rd = _ |- _ => rewrite E end. auto. Qed.
Lemma lrec_sets : forall c gh G V gh' G' V' rd r d d' rc, geff c gh G V (LRecCreate rd r d d' rc) gh' G' V' ->
  g_state (G' rd) = RD /\ g_mem (G' rd) = CRd d' /\ is_rd G rd d.
Proof. intros c gh G V gh' G' V' rd r d d' rc H. inversion H; subst. match goal with E : G' _ = mkG RD _ _ |- _ => rewrite E end. auto. Qed.

Lemma geffs_cut : forall c pre gh G V rest gh' G' V', geffs c gh G V (pre ++ rest) gh' G' V' -> Inv c gh G V ->
  exists gh1 G1 V1, (forall z, gchanges c pre z (G z) (G1 z)) /\ Inv c gh1 G1 V1 /\ geffs c gh1 G1 V1 rest gh' G' V'.
Proof.
  intros c pre. induction pre as [|lab pre IH]; intros gh G V rest gh' G' V' H I.
  - exists gh, G, V. split; [reflexivity|]. split; [exact I|exact H].
  - cbn [app] in H. inversion H as [|? ? ? ? gh1 G1 V1 ? ? ? ? X1 X2]; subst.
    pose proof (geff_inv _ _ _ _ _ _ _ _ I X1) as I1. destruct (IH _ _ _ _ _ _ _ X2 I1) as (gh2 & G2 & V2 & A & B & C).
    exists gh2, G2, V2. split; [|split; [exact B|exact C]]. intros z. exists (G1 z). split; [apply (geff_gran _ _ _ _ _ _ _ _ I X1)|apply A].
Qed.
(** The descriptor after effects of which one sets it *)
Lemma rd_after : forall c gh G V pre lab post gh' G' V' a d d1, geffs c gh G V (pre ++ lab :: post) gh' G' V' -> Inv c gh G V ->
  (lab = LRd a d d1 \/ exists r rc, lab = LRecCreate a r d d1 rc) -> forallb rd_still post = true ->
  g_mem (G' a) = CRd d1.
Proof.
  intros c gh G V pre lab post gh' G' V' a d d1 H I L F. destruct (geffs_cut _ _ _ _ _ _ _ _ _ H I) as (gh1 & G1 & V1 & _ & I1 & X).
  inversion X as [|? ? ? ? gh2 G2 V2 ? ? ? ? X1 X2]; subst.
  assert (S : g_state (G2 a) = RD /\ g_mem (G2 a) = CRd d1).
  { destruct L as [->|(r & rc & ->)]; [apply lrd_sets in X1|apply lrec_sets in X1]; tauto. }
  pose proof (geffs_gran _ _ _ _ _ _ _ _ X2 (geff_inv _ _ _ _ _ _ _ _ I1 X1) a) as GC.
  exact (proj2 (gchs_still _ _ _ _ _ _ GC F (proj1 S) (proj2 S))).
Qed.

Lemma is_rd_fun : forall G a d d', is_rd G a d -> is_rd G a d' -> d = d'.
Proof. intros G a d d' (_ & A) (_ & B). congruence. Qed.

Lemma init_rim_blocks : forall c alg size n base rim,
  init_rim c alg size n base rim =
  fold_left (extend (c_hash c alg)) (map (fun i => BRipas (base + N.of_nat i * size) (base + (N.of_nat i + 1) * size)) (seq 0 n)) rim.
Proof.
  intros c alg size n. induction n as [|n IH]; intros base rim; [reflexivity|].
  cbn [init_rim]. rewrite IH. cbn [seq map fold_left]. f_equal.
  - rewrite <- seq_shift, map_map. apply map_ext. intros i. f_equal; lia.
  - unfold measurement_init_ripas_measure. cbn [extend]. unfold MEASURE_DESC_TYPE_RIPAS, MEASURE_DESC_SIZE. repeat f_equal; lia.
Qed.

Lemma meas_frame : forall c m o rp a d d', rdchg c m o rp a d d' -> rd_algorithm d' = rd_algorithm d.
Proof.
  intros c m o rp a d d' H. destruct H; try reflexivity. unfold created_rec_rd. destruct (N.testbit _ 0); reflexivity.
Qed.

Lemma rim_step : forall c h m o m' rp, next c h m o m' rp -> forall a d d', realm m a d -> realm m' a d' ->
  rd_algorithm d' = rd_algorithm d /\ rd_meas d' 0 = fold_left (extend (c_hash c (rd_algorithm d))) (adds m o rp a) (rd_meas d 0).
Proof.
  intros c h m o m' rp H a d d' R R'.
  assert (ALG : rd_algorithm d' = rd_algorithm d).
  { destruct (rd_step _ _ _ _ _ _ H a d d' R R') as [->|C]; [reflexivity|]. exact (meas_frame _ _ _ _ _ _ _ C). }
  split; [exact ALG|].
  (* steps that add nothing *)
  assert (NO : adds m o rp a = [] ->
    (forall ok data ipa src fl r, ~ done o rp (KDataCreate ok a data ipa src fl) r) ->
    (forall base top r, ~ done o rp (KRttInitRipas a base top) r) ->
    (forall p rec pa r, done o rp (KRecCreate (Some p) a rec pa) r -> N.testbit (rp_flags p) 0 = false) ->
    rd_meas d' 0 = fold_left (extend (c_hash c (rd_algorithm d))) (adds m o rp a) (rd_meas d 0)).
  { intros -> N1 N2 N3. cbn [fold_left].
    destruct (rd_step _ _ _ _ _ _ H a d d' R R') as [->|C]; [reflexivity|]. destruct C as [? ? ? ? ? ? ? D| ? ? ? ? ? ? D| | p rec pa r D| b r ? ? I|].
    - destruct (N1 _ _ _ _ _ _ D).
    - destruct (N2 _ _ _ D).
    - reflexivity.
    - unfold created_rec_rd. rewrite (N3 _ _ _ _ D). reflexivity.
    - apply set_meas_other. lia.
    - reflexivity. }
  destruct o; try (apply NO; [reflexivity|intros; intros (? & ? & _); discriminate..|intros ? ? ? ? (? & ? & _); discriminate]).
  assert (E : exists r, rp = Reply r).
  { destruct (next_good _ _ _ _ _ _ H) as (? & ? & ? & _ & _ & _ & OE). destruct OE as (_ & r & inv & -> & _). eauto. }
  destruct E as (r & ->). cbn [adds].
  destruct (N.eqb_spec (x0 r) 0) as [OK|NOK].
  2:{ cbn [adds] in NO. replace (x0 r =? 0) with false in NO by lia. apply NO; [reflexivity|..].
      - intros. intros (? & E1 & E2 & E3). injection E2 as <-. contradiction.
      - intros. intros (? & E1 & E2 & E3). injection E2 as <-. contradiction.
      - intros ? ? ? ? (? & E1 & E2 & E3). injection E2 as <-. contradiction. }
  assert (D : done (OCmd p k) (Reply r) k r) by (exists p; auto).
  destruct (cmd_done_eff _ _ _ _ _ _ _ _ H D) as (gh & gh' & labs & inv & M & M' & GE & K & _ & _).
  pose proof (mv_inv _ _ _ M) as I. cbn [adds] in NO. replace (x0 r =? 0) with true in NO by lia.
  destruct k; try (apply NO; [reflexivity|intros; intros (? & E1 & _); discriminate E1..|intros ? ? ? ? (? & E1 & _); discriminate E1]).
  - (* DATA_CREATE *) destruct (N.eqb_spec rd a) as [->|Ne].
    2:{ apply NO; [reflexivity|intros; intros (? & E1 & _); injection E1; congruence|intros; intros (? & E1 & _); discriminate E1|intros ? ? ? ? (? & E1 & _); discriminate E1]. }
    destruct K as [(X & _)|(_ & _ & d0 & e & f & R0 & _ & _ & _ & _ & HP & FL & _ & _ & ->)]; [contradiction|].
    assert (d0 = d) by exact (is_rd_fun _ _ _ _ R0 R). subst d0.
    pose proof (rd_after _ _ _ _ [] _ _ _ _ _ _ _ _ GE I (or_introl eq_refl) eq_refl) as E. rewrite (proj2 R') in E. injection E as ->.
    cbn [fold_left]. change RIM_MEASUREMENT_SLOT with 0. unfold set_meas; cbn [rd_meas]. rewrite upd_same.
    unfold measurement_data_granule_measure, words_of. unfold host_page in HP. destruct readable; [|discriminate].
    destruct (g_mem (m_gr m src)) as [f0| |] eqn:EM; try discriminate. injection HP as ->.
    destruct FL as [->| ->]; reflexivity.
  - (* REC_CREATE *) destruct params as [q|].
    2:{ destruct K as [(X & _)|(_ & _ & q & ? & ? & E & _)]; [contradiction|discriminate]. }
    destruct (N.eqb_spec rd a) as [->|Ne].
    2:{ apply NO; [reflexivity|intros; intros (? & E1 & _); discriminate E1|intros; intros (? & E1 & _); discriminate E1|intros ? ? ? ? (? & E1 & _); injection E1; congruence]. }
    cbn [andb] in *. destruct (N.testbit (rp_flags q) 0) eqn:RB.
    2:{ apply NO; [reflexivity|intros; intros (? & E1 & _); discriminate E1|intros; intros (? & E1 & _); discriminate E1|
          intros ? ? ? ? (? & E1 & _); injection E1 as _ <- _ _; exact RB]. }
    destruct K as [(X & _)|(_ & _ & q' & d0 & rc & E & R0 & _ & _ & _ & _ & _ & _ & -> & ->)]; [contradiction|]. injection E as <-.
    assert (d0 = d) by exact (is_rd_fun _ _ _ _ R0 R). subst d0.
    pose proof (rd_after _ _ _ _ [] _ _ _ _ _ _ _ _ GE I (or_intror (ex_intro _ _ (ex_intro _ _ eq_refl))) eq_refl) as E. rewrite (proj2 R') in E.
    injection E as ->. change (r_runnable (new_rec _ _ _ _ _ _ _)) with (negb (N.land (rp_flags q) 1 =? 0)). rewrite bit0, RB.
    cbn [fold_left created_rec_rd]. unfold created_rec_rd. change RIM_MEASUREMENT_SLOT with 0. unfold set_rd_rec_count, set_meas; cbn [rd_meas]. rewrite upd_same.
    reflexivity.
  - (* INIT_RIPAS *) destruct (N.eqb_spec rd a) as [->|Ne].
    2:{ apply NO; [reflexivity|intros; intros (? & E1 & _); discriminate E1|intros; intros (? & E1 & _); injection E1; congruence|intros ? ? ? ? (? & E1 & _); discriminate E1]. }
    destruct K as [(X & _)|(_ & _ & d0 & wi & n & R0 & _ & BT & _ & _ & TT & W & RG & ->)]; [contradiction|].
    assert (d0 = d) by exact (is_rd_fun _ _ _ _ R0 R). subst d0.
    pose proof (rd_after _ _ _ _ _ _ [] _ _ _ _ _ _ GE I (or_introl eq_refl) eq_refl) as E. rewrite (proj2 R') in E. injection E as ->.
    change RIM_MEASUREMENT_SLOT with 0. unfold set_meas; cbn [rd_meas]. rewrite upd_same, init_rim_blocks. unfold blocks.
    assert (HS : entry_size m a base = ms (w_level wi)).
    { unfold entry_size. rewrite (proj2 R). rewrite (entry_walk _ _ _ _ I a d base 3 wi R); [| |exact W].
      - pose proof (ctx_sl _ (inv_ctx _ _ _ _ I _ _ R)) as SL. destruct W as (_ & _ & WL & _). rewrite arch_lsb_eq by lia. reflexivity.
      - assert (2 ^ (ipa_bits (rd_ctx d) - 1) <= 2 ^ ipa_bits (rd_ctx d)) by (apply pow2_le; lia). lia. }
    rewrite HS. destruct RG as (_ & _ & -> & _). replace (base + N.of_nat n * ms (w_level wi) - base) with (N.of_nat n * ms (w_level wi)) by lia.
    rewrite N.div_mul, Nnat.Nat2N.id; [reflexivity|]. pose proof (ms_pos (w_level wi)). lia.
Qed.

Lemma built_realm : forall c h m a p l, built c h m a p l -> exists d, realm m a d /\
  rd_algorithm d = p_algorithm p /\ rd_meas d 0 = rim_of (c_hash c (p_algorithm p)) p l.
Proof.
  intros c h m a p l H. induction H as [m o m' rp p a pa r H D|m a p l o m' rp d d' B IH H R R'].
  - destruct (cmd_done_eff _ _ _ _ _ _ _ _ H D) as (gh & gh' & labs & inv & M & M' & GE & K & OK & _).
    destruct K as [(NO & _)|(_ & _ & q & E & _ & HV & _ & _ & _ & _ & _ & ->)]; [contradiction|]. injection E as <-.
    exists (created_rd c p).
    inversion GE as [|? ? ? ? gh1 G1 V1 ? ? ? ? X1 X2]; subst. inversion X2 as [? ? ? ? ? HG HV2|]; subst. inversion X1; subst.
    assert (R : realm m' a (created_rd c p)).
    { split; rewrite HG; match goal with E : G1 a = _ |- _ => rewrite E end; reflexivity. }
    split; [exact R|]. split; reflexivity.
  - destruct IH as (d0 & R0 & A & E). assert (d0 = d) by (destruct R0 as [_ X], R as [_ Y]; congruence). subst d0.
    exists d'. split; [exact R'|]. destruct (rim_step _ _ _ _ _ _ H a d d' R R') as (A' & E'). split; [congruence|].
    rewrite E', A, E. unfold rim_of. symmetry. apply fold_left_app.
Qed.

Lemma built_rim : forall c h m a p l d, built c h m a p l -> realm m a d ->
  rd_algorithm d = p_algorithm p /\ rd_meas d 0 = rim_of (c_hash c (p_algorithm p)) p l.
Proof.
  intros c h m a p l d B R. destruct (built_realm _ _ _ _ _ _ B) as (d0 & R0 & H).
  assert (d0 = d) by (destruct R0 as [_ X], R as [_ Y]; congruence). subst d0. exact H.
Qed.

(** Induction over histories *)
Lemma reach_ind : forall c h (P : mstate -> Prop), (forall mem, P (init mem)) ->
  (forall m o m' rp, P m -> next c h m o m' rp -> P m') -> forall m, reachable c h m -> P m.
Proof.
  intros c h P P0 PS m (C & mem & l & S & F).
  assert (K : forall m0 l0 m1, steps c h m0 l0 m1 -> Forall op_ok (map fst l0) -> reachable c h m0 -> P m0 -> P m1).
  { intros m0 l0 m1 H. induction H as [m0|m0 o r m1 l0 m2 ST H IH]; intros F0 R0 H0; [exact H0|].
    inversion F0 as [|? ? F1 F2]; subst. assert (NX : next c h m0 o m1 r) by (split; [exact R0|split; assumption]).
    apply IH; [exact F2|exact (next_reachable _ _ _ _ _ _ NX)|exact (PS _ _ _ _ H0 NX)]. }
  apply (K _ _ _ S F); [|apply P0]. split; [exact C|]. exists mem, []. split; [constructor|constructor].
Qed.

Lemma has_history : forall c h m, reachable c h m -> forall a d, realm m a d -> exists p l, built c h m a p l.
Proof.
  intros c h. apply (reach_ind c h (fun m => forall a d, realm m a d -> exists p l, built c h m a p l)).
  - intros mem a d [S _]. discriminate S.
  - intros m o m' rp IH H a d' R'.
    assert (DEC : g_state (m_gr m a) = RD \/ g_state (m_gr m a) <> RD) by (destruct (g_state (m_gr m a)); (left; reflexivity) || (right; discriminate)).
    destruct DEC as [E|E].
    + destruct (reach_minv _ _ _ (proj1 H)) as (gh & M). destruct (i_rd _ _ _ _ (mv_inv _ _ _ M) a E) as (d & Md & _).
      assert (R : realm m a d) by (split; assumption). destruct (IH a d R) as (p & l & B). exists p, (l ++ adds m o rp a).
      eapply built_next; eassumption.
    + destruct (rd_new _ _ _ _ _ _ H a d' R' E) as (p & pa & r & D & _). exists p, []. eapply built_first; eassumption.
Qed.

(** ** Equal measurements *)

Lemma extend_inj : forall H, collision_free H -> forall x y b b', extend H x b = extend H y b' -> x = y /\ b = b'.
Proof.
  intros H CF x y b b' E.
  destruct b as [ipa [w|]|fl pc g|base top], b' as [ipa' [w'|]|fl' pc' g'|base' top']; cbn [extend] in E; apply CF in E; try discriminate E.
  - injection E as -> -> E. apply CF in E. subst w'. auto.
  - injection E as -> ->. auto.
  - injection E as -> E. apply CF in E. injection E as -> -> ->. auto.
  - injection E as -> -> ->. auto.
Qed.
Lemma extend_new : forall H, collision_free H -> forall p x b, H (measured p) <> extend H x b.
Proof. intros H CF p x b E. destruct b as [ipa [w|]|fl pc g|base top]; cbn [extend] in E; apply CF in E; discriminate E. Qed.

Lemma rim_inj : forall H p l p' l', collision_free H -> rim_of H p l = rim_of H p' l' -> measured p = measured p' /\ l = l'.
Proof.
  intros H p l p' l' CF. unfold rim_of. revert l'. induction l as [|b l IH] using rev_ind; intros l'; destruct l' as [|b' l' _] using rev_ind; intros E;
    rewrite ?fold_left_app in E; cbn [fold_left] in E.
  - apply CF in E. auto.
  - exfalso. exact (extend_new H CF _ _ _ E).
  - exfalso. symmetry in E. exact (extend_new H CF _ _ _ E).
  - apply (extend_inj H CF) in E. destruct E as (E & ->). apply IH in E. destruct E as (A & ->). auto.
Qed.
Lemma same_rim : forall c c' h h' m m' a a' d d' p p' l l', built c h m a p l -> built c' h' m' a' p' l' -> realm m a d -> realm m' a' d' ->
  c_hash c' = c_hash c -> rd_algorithm d = rd_algorithm d' -> collision_free (c_hash c (rd_algorithm d)) ->
  rd_meas d 0 = rd_meas d' 0 -> measured p = measured p' /\ l = l'.
Proof.
  intros c c' h h' m m' a a' d d' p p' l l' B B' R R' HC HA CF E.
  destruct (built_rim _ _ _ _ _ _ _ B R) as (A1 & E1). destruct (built_rim _ _ _ _ _ _ _ B' R') as (A2 & E2).
  rewrite E1, E2, HC, <- A2, <- HA, <- A1 in E. exact (rim_inj _ _ _ _ _ CF E).
Qed.
