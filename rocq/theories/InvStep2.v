(** Preservation of the invariant by changes to descriptors and to free
    granules. *)
From Coq Require Import NArith ZArith List Bool Lia ZifyBool ZifyN.
From Verif Require Import Bits S2tte S2tteFacts State Granule Wp RecFields Measure RmiRtt RmiRealm RmiRec Inv InvTree InvStep.
Import ListNotations.
Local Open Scope N_scope.

Lemma inv_ext : forall c gh G G' V V', Inv c gh G V -> (forall z, G' z = G z) -> (forall z, V' z = V z) -> Inv c gh G' V'.
Proof.
  intros c gh G G' V V' I F FV.
  assert (RDF : forall a d, is_rd G' a d <-> is_rd G a d) by (intros; unfold is_rd; rewrite F; tauto).
  assert (RECF : forall a d, is_rec G' a d <-> is_rec G a d) by (intros; unfold is_rec; rewrite F; tauto).
  constructor.
  - intros a. rewrite F. apply (i_gran _ _ _ _ I).
  - intros a. rewrite F. apply (i_ns _ _ _ _ I).
  - intros a. rewrite F. apply (i_del _ _ _ _ I).
  - intros a. rewrite F. apply (i_kinds _ _ _ _ I).
  - intros a. rewrite F. apply (i_data _ _ _ _ I).
  - intros a. rewrite F. apply (i_dmap _ _ _ _ I).
  - intros a. rewrite F. apply (i_rd _ _ _ _ I).
  - intros a d k R. apply RDF in R. apply (i_root _ _ _ _ I _ _ _ R).
  - intros a. rewrite F. apply (i_rtt _ _ _ _ I).
  - intros a rd l t O. destruct (i_own _ _ _ _ I _ _ _ _ O) as (d & R & T). exists d. rewrite RDF, F. auto.
  - intros v Hv. rewrite FV in Hv. destruct (i_vmid _ _ _ _ I v Hv) as (rd & d & R & E). exists rd, d. rewrite RDF. auto.
  - intros rd d R. apply RDF in R. rewrite FV. apply (i_vmid_set _ _ _ _ I _ _ R).
  - intros rd d rd' d' R R'. apply RDF in R, R'. apply (i_vmid_inj _ _ _ _ I _ _ _ _ R R').
  - intros a. rewrite F. intro H. destruct (i_rec _ _ _ _ I a H) as (H1 & rc & d & H2 & H3 & H4). split; [exact H1|].
    exists rc, d. rewrite RDF. auto.
  - intros rd a H. destruct (i_recs _ _ _ _ I _ _ H) as (rc & H1 & H2). exists rc. rewrite RECF. auto.
  - apply (i_recs_nodup _ _ _ _ I).
  - intros a rc a' rc' H H'. apply RECF in H, H'. apply (i_idx _ _ _ _ I _ _ _ _ H H').
  - intros a. rewrite F. apply (i_aux _ _ _ _ I).
  - intros a r H. rewrite F. destruct (i_auxo _ _ _ _ I a r H) as (H1 & rc & H2 & H3). split; [exact H1|].
    exists rc. rewrite RECF. auto.
Qed.

(** ** Free granules and the contents of data and auxiliary granules *)
Definition fr (g : granule) : Prop :=
  (g_state g = NS /\ g_ref g = 0 /\ exists f, g_mem g = CW f) \/ g = mkG DELEGATED 0 czero.

Lemma fr_ns : forall c gh G V, Inv c gh G V -> forall a, g_state (G a) = NS -> fr (G a).
Proof. intros c gh G V I a H. left. destruct (i_ns _ _ _ _ I a H). auto. Qed.
Lemma fr_del : forall c gh G V, Inv c gh G V -> forall a, g_state (G a) = DELEGATED -> fr (G a).
Proof. intros c gh G V I a H. right. apply (i_del _ _ _ _ I a H). Qed.

Definition word_change (g g' : granule) : Prop :=
  (g_state g = DATA \/ g_state g = REC_AUX) /\ exists f, g' = mkG (g_state g) (g_ref g) (CW f).

Lemma inv_free : forall c gh G G' V, Inv c gh G V ->
  (forall z, G' z = G z \/ (fr (G z) /\ fr (G' z) /\ (g_state (G' z) <> NS -> find_granule c z = true)) \/ word_change (G z) (G' z)) ->
  Inv c gh G' V.
Proof.
  intros c gh G G' V I F.
  assert (K : forall z, (g_state (G z) = RD \/ g_state (G z) = REC \/ g_state (G z) = RTT) -> G' z = G z).
  { intros z H. destruct (F z) as [E|[([(E & _)|E] & _)|([E|E] & _)]]; [exact E| | | |]; rewrite E in H; cbn in H;
      destruct H as [H|[H|H]]; discriminate. }
  assert (K' : forall z, (g_state (G' z) = RD \/ g_state (G' z) = REC \/ g_state (G' z) = RTT) -> G' z = G z).
  { intros z H. destruct (F z) as [E|[(_ & [(E & _)|E] & _)|([E|E] & f & W)]]; [exact E| | | |];
      try (rewrite E in H; cbn in H; destruct H as [H|[H|H]]; discriminate);
      rewrite W, E in H; cbn in H; destruct H as [H|[H|H]]; discriminate. }
  assert (ST : forall z, (g_state (G' z) = DATA \/ g_state (G' z) = REC_AUX) -> g_state (G z) = g_state (G' z)).
  { intros z H. destruct (F z) as [E|[(_ & [(E & _)|E] & _)|(_ & f & W)]]; [congruence| | |];
      try (rewrite E in H; cbn in H; destruct H; discriminate). rewrite W. reflexivity. }
  assert (ST' : forall z, (g_state (G z) = DATA \/ g_state (G z) = REC_AUX) -> g_state (G' z) = g_state (G z)).
  { intros z H. destruct (F z) as [E|[([(E & _)|E] & _)|(_ & f & W)]]; [congruence| | |];
      try (rewrite E in H; cbn in H; destruct H; discriminate). rewrite W. reflexivity. }
  assert (RDF : forall a d, is_rd G' a d <-> is_rd G a d).
  { intros a d. split; intros [S M].
    - assert (E : G' a = G a) by (apply K'; auto). rewrite E in S, M. split; assumption.
    - assert (E : G' a = G a) by (apply K; auto). unfold is_rd. rewrite E. split; assumption. }
  assert (RECF : forall a d, is_rec G' a d <-> is_rec G a d).
  { intros a d. split; intros [S M].
    - assert (E : G' a = G a) by (apply K'; auto). rewrite E in S, M. split; assumption.
    - assert (E : G' a = G a) by (apply K; auto). unfold is_rec. rewrite E. split; assumption. }
  constructor.
  - intros a H. destruct (F a) as [E|[(_ & _ & E)|([E|E] & f & W)]]; [rewrite E in H; apply (i_gran _ _ _ _ I a H)|auto| |];
      apply (i_gran _ _ _ _ I a); congruence.
  - intros a H. destruct (F a) as [E|[(_ & [(_ & E)|E] & _)|([E|E] & f & W)]].
    + rewrite E in *. apply (i_ns _ _ _ _ I a H).
    + exact E.
    + rewrite E in H. discriminate.
    + rewrite W in H. cbn in H. congruence.
    + rewrite W in H. cbn in H. congruence.
  - intros a H. destruct (F a) as [E|[(_ & [(E & _)|E] & _)|([E|E] & f & W)]].
    + rewrite E in *. apply (i_del _ _ _ _ I a H).
    + congruence.
    + exact E.
    + rewrite W in H. cbn in H. congruence.
    + rewrite W in H. cbn in H. congruence.
  - intro a. destruct (F a) as [E|[(_ & [(E & _)|E] & _)|([E|E] & f & W)]].
    + rewrite E. apply (i_kinds _ _ _ _ I).
    + rewrite E. exact Logic.I.
    + rewrite E. exact Logic.I.
    + rewrite W, E. exact Logic.I.
    + rewrite W, E. exact Logic.I.
  - intros a H. pose proof (ST a (or_introl H)) as S. rewrite H in S. destruct (i_data _ _ _ _ I a S) as (H1 & H2 & H3).
    destruct (F a) as [E|[(_ & [(E & _)|E] & _)|(_ & f & W)]].
    + rewrite E. auto.
    + congruence.
    + rewrite E in H. discriminate.
    + rewrite W. cbn. eauto.
  - intros a rd p H. destruct (i_dmap _ _ _ _ I _ _ _ H) as (H1 & H2). split; [|exact H2]. rewrite ST'; auto.
  - intros a H. assert (E : G' a = G a) by (apply K'; auto). rewrite E in *. apply (i_rd _ _ _ _ I a H).
  - intros a d k R. apply RDF in R. apply (i_root _ _ _ _ I _ _ _ R).
  - intros a H. assert (E : G' a = G a) by (apply K'; auto). rewrite E in *. apply (i_rtt _ _ _ _ I a H).
  - intros a rd l t O. destruct (i_own _ _ _ _ I _ _ _ _ O) as (d & R & T). exists d. rewrite RDF.
    rewrite K by (right; right; apply T). auto.
  - intros v Hv. destruct (i_vmid _ _ _ _ I v Hv) as (rd & d & R & E). exists rd, d. rewrite RDF. auto.
  - intros rd d R. apply RDF in R. apply (i_vmid_set _ _ _ _ I _ _ R).
  - intros rd d rd' d' R R'. apply RDF in R, R'. apply (i_vmid_inj _ _ _ _ I _ _ _ _ R R').
  - intros a H. assert (E : G' a = G a) by (apply K'; auto). rewrite E in *.
    destruct (i_rec _ _ _ _ I a H) as (H1 & rc & d & H2 & H3 & H4). split; [exact H1|]. exists rc, d. rewrite RDF. auto.
  - intros rd a H. destruct (i_recs _ _ _ _ I _ _ H) as (rc & H1 & H2). exists rc. rewrite RECF. auto.
  - apply (i_recs_nodup _ _ _ _ I).
  - intros a rc a' rc' H H'. apply RECF in H, H'. apply (i_idx _ _ _ _ I _ _ _ _ H H').
  - intros a H. pose proof (ST a (or_intror H)) as S. rewrite H in S. destruct (i_aux _ _ _ _ I a S) as (H1 & H2 & H3).
    destruct (F a) as [E|[(_ & [(E & _)|E] & _)|(_ & f & W)]].
    + rewrite E. auto.
    + congruence.
    + rewrite E in H. discriminate.
    + rewrite W. cbn. eauto.
  - intros a r H. destruct (i_auxo _ _ _ _ I a r H) as (H1 & rc & H2 & H3). split; [rewrite ST'; auto|].
    exists rc. rewrite RECF. auto.
Qed.

(** ** Realm descriptors *)
(** The parameters of a realm, fixed when it is created *)
Definition rd_fixed (d : rdesc) :=
  (rd_ctx d, rd_num_rec_aux d, rd_algorithm d, rd_pmu_enabled d, rd_pmu_num_ctrs d, rd_simd d, rd_rpv d).
Definition rd_le (c : cfg) (d d' : rdesc) : Prop :=
  rd_ctx d' = rd_ctx d /\ rd_ok c d' /\ (forall rc, rec_ok c d rc -> rec_ok c d' rc) /\
  rd_state d <= rd_state d' /\ rd_fixed d' = rd_fixed d.

Lemma inv_rd_upd : forall c gh G G' V rd d d', Inv c gh G V -> is_rd G rd d -> rd_le c d d' ->
  G' rd = mkG RD (g_ref (G rd)) (CRd d') -> (forall z, z <> rd -> G' z = G z) -> Inv c gh G' V.
Proof.
  intros c gh G G' V rd d d' I R (LC & LK & LR & _) Gr F.
  assert (ST : forall z, g_state (G' z) = g_state (G z)).
  { intro z. destruct (N.eq_dec z rd) as [->|nz]; [rewrite Gr; symmetry; apply R|rewrite F by assumption; reflexivity]. }
  assert (RDF : forall a d2, is_rd G' a d2 -> exists d1, is_rd G a d1 /\ rd_ctx d2 = rd_ctx d1).
  { intros a d2 [S M]. destruct (N.eq_dec a rd) as [->|nz].
    - rewrite Gr in M. injection M as <-. exists d. auto.
    - rewrite F in S, M by assumption. exists d2. split; [split; assumption|reflexivity]. }
  assert (RDB : forall a d1, is_rd G a d1 -> exists d2, is_rd G' a d2 /\ rd_ctx d2 = rd_ctx d1 /\ forall rc, rec_ok c d1 rc -> rec_ok c d2 rc).
  { intros a d1 [S M]. destruct (N.eq_dec a rd) as [->|nz].
    - exists d'. assert (d1 = d) as -> by (destruct R; congruence). split; [unfold is_rd; rewrite Gr; split; reflexivity|]. auto.
    - exists d1. unfold is_rd. rewrite F by assumption. auto. }
  assert (NR : forall z, g_state (G z) <> RD -> G' z = G z) by (intros z H; apply F; intros ->; apply H, R).
  assert (RECF : forall a r, is_rec G' a r <-> is_rec G a r).
  { intros a r. unfold is_rec. rewrite ST. split; intros [S M]; (split; [exact S|]); [rewrite NR in M by congruence|rewrite NR by congruence]; exact M. }
  constructor.
  - intros a. rewrite ST. apply (i_gran _ _ _ _ I).
  - intros a. rewrite ST. intro H. rewrite NR by congruence. apply (i_ns _ _ _ _ I a H).
  - intros a. rewrite ST. intro H. rewrite NR by congruence. apply (i_del _ _ _ _ I a H).
  - intros a. rewrite ST. apply (i_kinds _ _ _ _ I).
  - intros a. rewrite ST. intro H. rewrite NR by congruence. apply (i_data _ _ _ _ I a H).
  - intros a rd' p. rewrite ST. apply (i_dmap _ _ _ _ I).
  - intros a. rewrite ST. intro H. destruct (i_rd _ _ _ _ I a H) as (d0 & H1 & H2 & H3).
    destruct (N.eq_dec a rd) as [->|nz]; [rewrite Gr|rewrite F by assumption; eauto]. exists d'. auto.
  - intros a d2 k R2. destruct (RDF _ _ R2) as (d1 & R1 & ->). apply (i_root _ _ _ _ I _ _ _ R1).
  - intros a. rewrite ST. apply (i_rtt _ _ _ _ I).
  - intros a rd' l t O. destruct (i_own _ _ _ _ I _ _ _ _ O) as (d1 & R1 & T). destruct (RDB _ _ R1) as (d2 & R2 & E & _).
    exists d2. split; [exact R2|]. rewrite E. rewrite NR by (rewrite (t_state _ _ _ _ _ _ _ T); discriminate). exact T.
  - intros v Hv. destruct (i_vmid _ _ _ _ I v Hv) as (r1 & d1 & R1 & E1). destruct (RDB _ _ R1) as (d2 & R2 & E & _).
    exists r1, d2. split; [exact R2|]. congruence.
  - intros r2 d2 R2. destruct (RDF _ _ R2) as (d1 & R1 & ->). apply (i_vmid_set _ _ _ _ I _ _ R1).
  - intros r2 d2 r3 d3 R2 R3. destruct (RDF _ _ R2) as (d1 & R1 & ->). destruct (RDF _ _ R3) as (d4 & R4 & ->).
    apply (i_vmid_inj _ _ _ _ I _ _ _ _ R1 R4).
  - intros a. rewrite ST. intro H. rewrite NR by congruence.
    destruct (i_rec _ _ _ _ I a H) as (H1 & rc & d1 & H2 & H3 & H4 & H5). split; [exact H1|].
    destruct (RDB _ _ H3) as (d2 & R2 & E & L). exists rc, d2. auto.
  - intros r2 a H. destruct (i_recs _ _ _ _ I _ _ H) as (rc & H1 & H2). exists rc. rewrite RECF. auto.
  - apply (i_recs_nodup _ _ _ _ I).
  - intros a rc a' rc' H H'. apply RECF in H, H'. apply (i_idx _ _ _ _ I _ _ _ _ H H').
  - intros a. rewrite ST. intro H. rewrite NR by congruence. apply (i_aux _ _ _ _ I a H).
  - intros a r H. rewrite ST. destruct (i_auxo _ _ _ _ I a r H) as (H1 & rc & H2 & H3). split; [exact H1|].
    exists rc. rewrite RECF. auto.
Qed.

(** ** RECs *)
Lemma inv_rec_upd : forall c gh G G' V r rc rc' n, Inv c gh G V -> is_rec G r rc ->
  r_g_rd rc' = r_g_rd rc -> r_idx rc' = r_idx rc -> r_aux rc' = r_aux rc ->
  (forall d, is_rd G (r_g_rd rc) d -> rec_ok c d rc -> rec_ok c d rc') -> n <= 1 ->
  G' r = mkG REC n (CRec rc') -> (forall z, z <> r -> G' z = G z) -> Inv c gh G' V.
Proof.
  intros c gh G G' V r rc rc' n I R E1 E2 E3 OK Hn Gr F.
  assert (ST : forall z, g_state (G' z) = g_state (G z)).
  { intro z. destruct (N.eq_dec z r) as [->|nz]; [rewrite Gr; symmetry; apply R|rewrite F by assumption; reflexivity]. }
  assert (NR : forall z, g_state (G z) <> REC -> G' z = G z) by (intros z H; apply F; intros ->; apply H, R).
  assert (RDF : forall a d, is_rd G' a d <-> is_rd G a d).
  { intros a d. unfold is_rd. rewrite ST. split; intros [S M]; (split; [exact S|]); [rewrite NR in M by congruence|rewrite NR by congruence]; exact M. }
  assert (RECF : forall a r2, is_rec G' a r2 -> exists r1, is_rec G a r1 /\ r_g_rd r2 = r_g_rd r1 /\ r_idx r2 = r_idx r1 /\ r_aux r2 = r_aux r1).
  { intros a r2 [S M]. destruct (N.eq_dec a r) as [->|nz].
    - rewrite Gr in M. injection M as <-. exists rc. auto.
    - rewrite F in S, M by assumption. exists r2. split; [split; assumption|auto]. }
  assert (RECB : forall a r1, is_rec G a r1 -> exists r2, is_rec G' a r2 /\ r_g_rd r2 = r_g_rd r1 /\ r_idx r2 = r_idx r1 /\ r_aux r2 = r_aux r1).
  { intros a r1 [S M]. destruct (N.eq_dec a r) as [->|nz].
    - exists rc'. assert (r1 = rc) as -> by (destruct R; congruence). split; [unfold is_rec; rewrite Gr; split; reflexivity|]. auto.
    - exists r1. unfold is_rec. rewrite F by assumption. auto. }
  constructor.
  - intros a. rewrite ST. apply (i_gran _ _ _ _ I).
  - intros a. rewrite ST. intro H. rewrite NR by congruence. apply (i_ns _ _ _ _ I a H).
  - intros a. rewrite ST. intro H. rewrite NR by congruence. apply (i_del _ _ _ _ I a H).
  - intros a. rewrite ST. apply (i_kinds _ _ _ _ I).
  - intros a. rewrite ST. intro H. rewrite NR by congruence. apply (i_data _ _ _ _ I a H).
  - intros a rd' p. rewrite ST. apply (i_dmap _ _ _ _ I).
  - intros a. rewrite ST. intro H. rewrite NR by congruence. apply (i_rd _ _ _ _ I a H).
  - intros a d k R2. apply RDF in R2. apply (i_root _ _ _ _ I _ _ _ R2).
  - intros a. rewrite ST. apply (i_rtt _ _ _ _ I).
  - intros a rd' l t O. destruct (i_own _ _ _ _ I _ _ _ _ O) as (d1 & R1 & T).
    exists d1. rewrite RDF. split; [exact R1|]. rewrite NR by (rewrite (t_state _ _ _ _ _ _ _ T); discriminate). exact T.
  - intros v Hv. destruct (i_vmid _ _ _ _ I v Hv) as (r1 & d1 & R1 & Ev). exists r1, d1. rewrite RDF. auto.
  - intros rd d R2. apply RDF in R2. apply (i_vmid_set _ _ _ _ I _ _ R2).
  - intros rd d rd' d' R2 R3. apply RDF in R2, R3. apply (i_vmid_inj _ _ _ _ I _ _ _ _ R2 R3).
  - intros a. rewrite ST. intro H. destruct (i_rec _ _ _ _ I a H) as (H1 & rc0 & d1 & H2 & H3 & H4 & H5 & H6).
    destruct (N.eq_dec a r) as [->|nz].
    + rewrite Gr. cbn. split; [exact Hn|]. assert (rc0 = rc) as -> by (destruct R; congruence).
      exists rc', d1. rewrite E1, E3, RDF. auto 6.
    + rewrite F by assumption. split; [exact H1|]. exists rc0, d1. rewrite RDF. auto 6.
  - intros rd a H. destruct (i_recs _ _ _ _ I _ _ H) as (r1 & H1 & H2). destruct (RECB _ _ H1) as (r2 & K1 & K2 & _).
    exists r2. split; [exact K1|congruence].
  - apply (i_recs_nodup _ _ _ _ I).
  - intros a r2 a' r2' H H'. destruct (RECF _ _ H) as (r1 & K1 & -> & -> & _). destruct (RECF _ _ H') as (r1' & K1' & -> & -> & _).
    apply (i_idx _ _ _ _ I _ _ _ _ K1 K1').
  - intros a. rewrite ST. intro H. rewrite NR by congruence. apply (i_aux _ _ _ _ I a H).
  - intros a r0 H. rewrite ST. destruct (i_auxo _ _ _ _ I a r0 H) as (H1 & r1 & H2 & H3). split; [exact H1|].
    destruct (RECB _ _ H2) as (r2 & K1 & _ & _ & K4). exists r2. rewrite K4. auto.
Qed.

Definition set_recs (gh : ghost) (rd : N) (v : list N) : ghost :=
  mkGh (own gh) (ent gh) (dmap gh) (upd (recs gh) rd v) (auxo gh).
Definition memb (x : N) (l : list N) : bool := existsb (N.eqb x) l.
Lemma memb_in : forall x l, memb x l = true <-> In x l.
Proof. intros. unfold memb. rewrite existsb_exists. split; [intros (y & H & E); apply N.eqb_eq in E; congruence|intro H; exists x; split; [exact H|apply N.eqb_refl]]. Qed.
Definition set_auxs (gh : ghost) (l : list N) (v : option N) : ghost :=
  mkGh (own gh) (ent gh) (dmap gh) (recs gh) (fun z => if memb z l then v else auxo gh z).

Lemma inv_rec_create : forall c gh G G' V rd d d' r rc, Inv c gh G V ->
  is_rd G rd d -> rd_le c d d' -> rd_rec_count d' = rd_rec_count d + 1 -> g_ref (G rd) + 1 <= REFCOUNT_MAX ->
  g_state (G r) = DELEGATED -> (forall z, In z (r_aux rc) -> g_state (G z) = DELEGATED /\ z <> r) ->
  r_g_rd rc = rd -> r_idx rc = rd_rec_count d -> rec_ok c d' rc ->
  G' rd = mkG RD (g_ref (G rd) + 1) (CRd d') -> G' r = mkG REC 0 (CRec rc) ->
  (forall z, In z (r_aux rc) -> exists f, G' z = mkG REC_AUX 0 (CW f)) ->
  (forall z, z <> rd -> z <> r -> ~ In z (r_aux rc) -> G' z = G z) ->
  Inv c (set_auxs (set_recs gh rd (r :: recs gh rd)) (r_aux rc) (Some r)) G' V.
Proof.
  intros c gh G G' V rd d d' r rc I R (LC & LK & LR & _) RCNT RMAX Sr SA RG RI RO Grd Gr GA F.
  pose proof R as [Srd Mrd].
  assert (nrd : r <> rd) by congruence.
  assert (SAN : forall z, In z (r_aux rc) -> z <> rd) by (intros z H; destruct (SA z H); congruence).
  assert (DEC : forall z, z = rd \/ z = r \/ In z (r_aux rc) \/ (z <> rd /\ z <> r /\ ~ In z (r_aux rc))).
  { intro z. destruct (N.eq_dec z rd); [auto|]. destruct (N.eq_dec z r); [auto|]. destruct (in_dec N.eq_dec z (r_aux rc)); auto 6. }
  assert (ST : forall z, g_state (G z) <> DELEGATED -> g_state (G' z) = g_state (G z)).
  { intros z H. destruct (DEC z) as [->|[->|[K|(K1 & K2 & K3)]]].
    - rewrite Grd. symmetry. exact Srd.
    - congruence.
    - destruct (SA z K). congruence.
    - rewrite F by assumption. reflexivity. }
  assert (NR : forall z, g_state (G z) <> DELEGATED -> z <> rd -> G' z = G z).
  { intros z H nz. apply F; [exact nz|congruence|]. intro K. destruct (SA z K). congruence. }
  assert (NR' : forall z, g_state (G' z) <> RD -> g_state (G' z) <> REC -> g_state (G' z) <> REC_AUX -> G' z = G z).
  { intros z H1 H2 H3. destruct (DEC z) as [->|[->|[K|(K1 & K2 & K3)]]].
    - rewrite Grd in H1. cbn in H1. congruence.
    - rewrite Gr in H2. cbn in H2. congruence.
    - destruct (GA z K) as (f & E). rewrite E in H3. cbn in H3. congruence.
    - apply F; assumption. }
  assert (RDF : forall a d2, is_rd G' a d2 -> exists d1, is_rd G a d1 /\ rd_ctx d2 = rd_ctx d1).
  { intros a d2 [S M]. destruct (DEC a) as [->|[->|[K|(K1 & K2 & K3)]]].
    - rewrite Grd in M. injection M as <-. exists d. auto.
    - rewrite Gr in S. discriminate.
    - destruct (GA a K) as (f & E). rewrite E in S. discriminate.
    - rewrite F in S, M by assumption. exists d2. split; [split; assumption|reflexivity]. }
  assert (RDB : forall a d1, is_rd G a d1 -> exists d2, is_rd G' a d2 /\ rd_ctx d2 = rd_ctx d1 /\ forall rc, rec_ok c d1 rc -> rec_ok c d2 rc).
  { intros a d1 [S M]. destruct (N.eq_dec a rd) as [->|nz].
    - exists d'. assert (d1 = d) as -> by congruence. split; [unfold is_rd; rewrite Grd; split; reflexivity|]. auto.
    - exists d1. unfold is_rd. rewrite NR by congruence. auto. }
  assert (RECF : forall a r2, is_rec G' a r2 -> (a = r /\ r2 = rc) \/ (a <> r /\ is_rec G a r2)).
  { intros a r2 [S M]. destruct (DEC a) as [->|[->|[K|(K1 & K2 & K3)]]].
    - rewrite Grd in S. discriminate.
    - left. rewrite Gr in M. injection M as <-. auto.
    - destruct (GA a K) as (f & E). rewrite E in S. discriminate.
    - right. rewrite F in S, M by assumption. split; [assumption|split; assumption]. }
  assert (RECB : forall a r1, is_rec G a r1 -> is_rec G' a r1).
  { intros a r1 [S M]. unfold is_rec. rewrite NR by congruence. auto. }
  assert (RECr : is_rec G' r rc) by (unfold is_rec; rewrite Gr; split; reflexivity).
  constructor; cbn [own ent dmap recs auxo set_auxs set_recs].
  - intros a H. destruct (DEC a) as [->|[->|[K|(K1 & K2 & K3)]]].
    + apply (i_gran _ _ _ _ I). congruence.
    + apply (i_gran _ _ _ _ I). congruence.
    + apply (i_gran _ _ _ _ I). destruct (SA a K). congruence.
    + rewrite F in H by assumption. apply (i_gran _ _ _ _ I a H).
  - intros a H. rewrite NR' in * by congruence. apply (i_ns _ _ _ _ I a H).
  - intros a H. rewrite NR' in * by congruence. apply (i_del _ _ _ _ I a H).
  - intros a. destruct (DEC a) as [->|[->|[K|(K1 & K2 & K3)]]].
    + rewrite Grd. exact Logic.I.
    + rewrite Gr. exact Logic.I.
    + destruct (GA a K) as (f & E). rewrite E. exact Logic.I.
    + rewrite F by assumption. apply (i_kinds _ _ _ _ I).
  - intros a H. rewrite NR' in * by congruence. apply (i_data _ _ _ _ I a H).
  - intros a rd' p H. destruct (i_dmap _ _ _ _ I _ _ _ H) as (H1 & H2). split; [|exact H2]. rewrite ST by congruence. exact H1.
  - intros a H. destruct (N.eq_dec a rd) as [->|nz].
    + rewrite Grd. exists d'. cbn. split; [reflexivity|]. split; [exact LK|]. rewrite upd_same. cbn [length].
      destruct (i_rd _ _ _ _ I rd Srd) as (_ & _ & _ & H3). lia.
    + rewrite upd_other by assumption.
      destruct (DEC a) as [->|[->|[K|(K1 & K2 & K3)]]]; [congruence|rewrite Gr in H; discriminate| |].
      * destruct (GA a K) as (f & E). rewrite E in H. discriminate.
      * rewrite F in * by assumption. apply (i_rd _ _ _ _ I a H).
  - intros a d2 k R2. destruct (RDF _ _ R2) as (d1 & R1 & ->). apply (i_root _ _ _ _ I _ _ _ R1).
  - intros a H. rewrite NR' in * by congruence. apply (i_rtt _ _ _ _ I a H).
  - intros a rd' l t O. destruct (i_own _ _ _ _ I _ _ _ _ O) as (d1 & R1 & T). destruct (RDB _ _ R1) as (d2 & R2 & E & _).
    exists d2. split; [exact R2|]. rewrite E. pose proof (t_state _ _ _ _ _ _ _ T). rewrite NR by congruence. destruct T; constructor; assumption.
  - intros v Hv. destruct (i_vmid _ _ _ _ I v Hv) as (r1 & d1 & R1 & E1). destruct (RDB _ _ R1) as (d2 & R2 & E & _).
    exists r1, d2. split; [exact R2|]. congruence.
  - intros r2 d2 R2. destruct (RDF _ _ R2) as (d1 & R1 & ->). apply (i_vmid_set _ _ _ _ I _ _ R1).
  - intros r2 d2 r3 d3 R2 R3. destruct (RDF _ _ R2) as (d1 & R1 & ->). destruct (RDF _ _ R3) as (d4 & R4 & ->).
    apply (i_vmid_inj _ _ _ _ I _ _ _ _ R1 R4).
  - intros a H. destruct (N.eq_dec a r) as [->|na].
    + rewrite Gr. cbn. split; [lia|]. exists rc, d'. split; [reflexivity|].
      split; [rewrite RG; unfold is_rd; rewrite Grd; split; reflexivity|]. split; [exact RO|].
      rewrite RG, upd_same. split; [left; reflexivity|]. intros y Hy. apply memb_in in Hy. rewrite Hy. reflexivity.
    + assert (SR : g_state (G a) = REC /\ G' a = G a).
      { destruct (DEC a) as [->|[->|[K|(K1 & K2 & K3)]]]; [rewrite Grd in H; discriminate|congruence| |].
        - destruct (GA a K) as (f & E). rewrite E in H. discriminate.
        - rewrite F in H by assumption. split; [exact H|]. apply F; assumption. }
      destruct SR as (SR & ->). destruct (i_rec _ _ _ _ I a SR) as (H1 & rc0 & d1 & H2 & H3 & H4 & H5 & H6). split; [exact H1|].
      destruct (RDB _ _ H3) as (d2 & R2 & E & L). exists rc0, d2. split; [exact H2|]. split; [exact R2|]. split; [auto|]. split.
      * destruct (N.eq_dec (r_g_rd rc0) rd) as [Eq|ne]; [rewrite Eq, upd_same; right; rewrite <- Eq; exact H5|rewrite upd_other by assumption; exact H5].
      * intros y Hy. destruct (memb y (r_aux rc)) eqn:M; [|auto]. apply memb_in in M. destruct (SA y M) as (S1 & _).
        pose proof (H6 y Hy) as A. apply (i_auxo _ _ _ _ I) in A. destruct A. congruence.
  - intros rd' a H. destruct (N.eq_dec rd' rd) as [->|ne].
    + rewrite upd_same in H. destruct H as [<-|H]; [exists rc; auto|].
      destruct (i_recs _ _ _ _ I _ _ H) as (r1 & H1 & H2). exists r1. auto.
    + rewrite upd_other in H by assumption. destruct (i_recs _ _ _ _ I _ _ H) as (r1 & H1 & H2). exists r1. auto.
  - intro rd'. destruct (N.eq_dec rd' rd) as [->|ne].
    + rewrite upd_same. split.
      * constructor; [|apply (i_recs_nodup _ _ _ _ I)]. intro H.
        destruct (i_recs _ _ _ _ I _ _ H) as (r1 & [H1 _] & _). congruence.
      * destruct (i_rd _ _ _ _ I _ Srd) as (d0 & _ & _ & Rf). rewrite Rf in RMAX. cbn [length]. lia.
    + rewrite upd_other by assumption. apply (i_recs_nodup _ _ _ _ I).
  - assert (LT : forall a r1, is_rec G a r1 -> r_g_rd r1 = rd -> r_idx r1 < rd_rec_count d).
    { intros a r1 [S M] E. destruct (i_rec _ _ _ _ I a S) as (_ & rc0 & d1 & H2 & H3 & H4 & _).
      assert (rc0 = r1) as -> by congruence. rewrite E in H3. rewrite (is_rd_inj _ _ _ _ R H3). apply H4. }
    intros a r2 a' r2' H H' E1 E2. destruct (RECF _ _ H) as [(-> & ->)|(na & K)], (RECF _ _ H') as [(-> & ->)|(na' & K')].
    + reflexivity.
    + pose proof (LT _ _ K' ltac:(congruence)). lia.
    + pose proof (LT _ _ K ltac:(congruence)). lia.
    + apply (i_idx _ _ _ _ I _ _ _ _ K K' E1 E2).
  - intros a H. destruct (DEC a) as [->|[->|[K|(K1 & K2 & K3)]]].
    + rewrite Grd in H. discriminate.
    + rewrite Gr in H. discriminate.
    + destruct (GA a K) as (f & E). rewrite E. cbn. apply memb_in in K. rewrite K. split; [reflexivity|]. split; [eauto|discriminate].
    + rewrite F in * by assumption. destruct (memb a (r_aux rc)) eqn:M; [apply memb_in in M; contradiction|]. apply (i_aux _ _ _ _ I a H).
  - intros a r0 H. destruct (memb a (r_aux rc)) eqn:M.
    + injection H as <-. apply memb_in in M. destruct (GA a M) as (f & E). rewrite E. split; [reflexivity|]. exists rc. auto.
    + destruct (i_auxo _ _ _ _ I a r0 H) as (H1 & r1 & H2 & H3). split; [rewrite ST by congruence; exact H1|]. exists r1. auto.
Qed.

Lemma inv_rec_destroy : forall c gh G G' V r rc d, Inv c gh G V ->
  is_rec G r rc -> is_rd G (r_g_rd rc) d ->
  G' (r_g_rd rc) = mkG RD (g_ref (G (r_g_rd rc)) - 1) (CRd d) -> G' r = mkG DELEGATED 0 czero ->
  (forall z, In z (r_aux rc) -> G' z = mkG DELEGATED 0 czero) ->
  (forall z, z <> r_g_rd rc -> z <> r -> ~ In z (r_aux rc) -> G' z = G z) ->
  Inv c (set_auxs (set_recs gh (r_g_rd rc) (remove N.eq_dec r (recs gh (r_g_rd rc)))) (r_aux rc) None) G' V.
Proof.
  intros c gh G G' V r rc d I Rr R Grd Gr GA F. set (rd := r_g_rd rc) in *.
  pose proof R as [Srd Mrd]. pose proof Rr as [Sr Mr].
  destruct (i_rec _ _ _ _ I r Sr) as (_ & rc0 & d0 & Q1 & Q2 & _ & Q4 & Q5).
  assert (rc0 = rc) as -> by congruence. fold rd in Q2, Q4. clear d0 Q2 Q1.
  assert (SA : forall z, In z (r_aux rc) -> g_state (G z) = REC_AUX) by (intros z H; apply (i_auxo _ _ _ _ I z r (Q5 z H))).
  assert (nrd : r <> rd) by congruence.
  assert (DEC : forall z, z = rd \/ z = r \/ In z (r_aux rc) \/ (z <> rd /\ z <> r /\ ~ In z (r_aux rc))).
  { intro z. destruct (N.eq_dec z rd); [auto|]. destruct (N.eq_dec z r); [auto|]. destruct (in_dec N.eq_dec z (r_aux rc)); auto 6. }
  assert (NR : forall z, g_state (G z) <> REC -> g_state (G z) <> REC_AUX -> z <> rd -> G' z = G z).
  { intros z H1 H2 nz. apply F; [exact nz|congruence|]. intro K. apply H2, SA, K. }
  assert (NR' : forall z, g_state (G' z) <> RD -> g_state (G' z) <> DELEGATED -> G' z = G z).
  { intros z H1 H2. destruct (DEC z) as [->|[->|[K|(K1 & K2 & K3)]]].
    - rewrite Grd in H1. cbn in H1. congruence.
    - rewrite Gr in H2. cbn in H2. congruence.
    - rewrite (GA z K) in H2. cbn in H2. congruence.
    - apply F; assumption. }
  assert (RDF : forall a d2, is_rd G' a d2 <-> is_rd G a d2).
  { intros a d2. destruct (DEC a) as [->|[->|[K|(K1 & K2 & K3)]]]; unfold is_rd.
    - rewrite Grd, Srd, Mrd. tauto.
    - rewrite Gr, Sr. split; intros [H _]; discriminate.
    - rewrite (GA a K), (SA a K). split; intros [H _]; discriminate.
    - rewrite F by assumption. tauto. }
  assert (RECF : forall a r2, is_rec G' a r2 <-> (a <> r /\ is_rec G a r2)).
  { intros a r2. destruct (DEC a) as [->|[->|[K|(K1 & K2 & K3)]]]; unfold is_rec.
    - rewrite Grd, Srd. split; [intros [H _]|intros [_ [H _]]]; discriminate.
    - rewrite Gr. split; [intros [H _]; discriminate|intros [H _]; congruence].
    - rewrite (GA a K), (SA a K). split; [intros [H _]|intros [_ [H _]]]; discriminate.
    - rewrite F by assumption. tauto. }
  assert (AUXN : forall a r1 y, is_rec G a r1 -> a <> r -> In y (r_aux r1) -> ~ In y (r_aux rc)).
  { intros a r1 y [S M] na Hy K. destruct (i_rec _ _ _ _ I a S) as (_ & rc1 & d1 & P1 & _ & _ & _ & P5).
    assert (rc1 = r1) as -> by congruence. specialize (P5 y Hy). rewrite (Q5 y K) in P5. congruence. }
  constructor; cbn [own ent dmap recs auxo set_auxs set_recs].
  - intros a H. destruct (DEC a) as [->|[->|[K|(K1 & K2 & K3)]]].
    + apply (i_gran _ _ _ _ I). congruence.
    + apply (i_gran _ _ _ _ I). congruence.
    + apply (i_gran _ _ _ _ I). rewrite (SA a K). discriminate.
    + rewrite F in H by assumption. apply (i_gran _ _ _ _ I a H).
  - intros a H. rewrite NR' in * by congruence. apply (i_ns _ _ _ _ I a H).
  - intros a H. destruct (DEC a) as [->|[->|[K|(K1 & K2 & K3)]]].
    + rewrite Grd in H. discriminate.
    + exact Gr.
    + apply GA, K.
    + rewrite F in * by assumption. apply (i_del _ _ _ _ I a H).
  - intros a. destruct (DEC a) as [->|[->|[K|(K1 & K2 & K3)]]].
    + rewrite Grd. exact Logic.I.
    + rewrite Gr. exact Logic.I.
    + rewrite (GA a K). exact Logic.I.
    + rewrite F by assumption. apply (i_kinds _ _ _ _ I).
  - intros a H. rewrite NR' in * by congruence. apply (i_data _ _ _ _ I a H).
  - intros a rd' p H. destruct (i_dmap _ _ _ _ I _ _ _ H) as (H1 & H2). split; [|exact H2]. rewrite NR by congruence. exact H1.
  - intros a H. destruct (N.eq_dec a rd) as [->|nz].
    + rewrite Grd. exists d. cbn. split; [reflexivity|]. split; [apply (inv_rd_ok _ _ _ _ I _ _ R)|]. rewrite upd_same.
      destruct (i_rd _ _ _ _ I rd Srd) as (_ & _ & _ & H3). rewrite H3.
      pose proof (proj1 (i_recs_nodup _ _ _ _ I rd)) as ND. clear -ND Q4. induction (recs gh rd) as [|y l IH]; [destruct Q4|].
      inversion ND as [|? ? N1 N2]; subst. cbn [remove]. destruct (N.eq_dec r y) as [->|ne].
      * rewrite notin_remove by assumption. cbn [length]. lia.
      * destruct Q4 as [Q4|Q4]; [congruence|]. cbn [length]. specialize (IH Q4 N2).
        assert (0 < length l)%nat by (destruct l; [destruct Q4|cbn; lia]). lia.
    + rewrite upd_other by assumption.
      destruct (DEC a) as [->|[->|[K|(K1 & K2 & K3)]]]; [congruence|rewrite Gr in H; discriminate| |].
      * rewrite (GA a K) in H. discriminate.
      * rewrite F in * by assumption. apply (i_rd _ _ _ _ I a H).
  - intros a d2 k R2. apply RDF in R2. apply (i_root _ _ _ _ I _ _ _ R2).
  - intros a H. rewrite NR' in * by congruence. apply (i_rtt _ _ _ _ I a H).
  - intros a rd' l t O. destruct (i_own _ _ _ _ I _ _ _ _ O) as (d1 & R1 & T). exists d1. rewrite RDF. split; [exact R1|].
    pose proof (t_state _ _ _ _ _ _ _ T). rewrite NR by congruence. destruct T; constructor; assumption.
  - intros v Hv. destruct (i_vmid _ _ _ _ I v Hv) as (r1 & d1 & R1 & E1). exists r1, d1. rewrite RDF. auto.
  - intros r2 d2 R2. apply RDF in R2. apply (i_vmid_set _ _ _ _ I _ _ R2).
  - intros r2 d2 r3 d3 R2 R3. apply RDF in R2, R3. apply (i_vmid_inj _ _ _ _ I _ _ _ _ R2 R3).
  - intros a H. assert (E : G' a = G a) by (apply NR'; congruence). rewrite E in *.
    assert (na : a <> r). { intros ->. rewrite <- E, Gr in H. discriminate. }
    destruct (i_rec _ _ _ _ I a H) as (H1 & rc0 & d1 & H2 & H3 & H4 & H5 & H6). split; [exact H1|].
    exists rc0, d1. rewrite RDF. split; [exact H2|]. split; [exact H3|]. split; [exact H4|]. split.
    + destruct (N.eq_dec (r_g_rd rc0) rd) as [Eq|ne]; [|rewrite upd_other by assumption; exact H5].
      rewrite Eq, upd_same. apply in_in_remove; [exact na|rewrite <- Eq; exact H5].
    + intros y Hy. destruct (memb y (r_aux rc)) eqn:M; [|auto]. exfalso. apply memb_in in M.
      eapply AUXN; [split; [exact H|exact H2]|exact na|exact Hy|exact M].
  - intros rd' a H. destruct (N.eq_dec rd' rd) as [->|ne].
    + rewrite upd_same in H. apply in_remove in H. destruct H as (H & na).
      destruct (i_recs _ _ _ _ I _ _ H) as (r1 & H1 & H2). exists r1. rewrite RECF. auto.
    + rewrite upd_other in H by assumption. destruct (i_recs _ _ _ _ I _ _ H) as (r1 & H1 & H2). exists r1. rewrite RECF.
      split; [split; [|exact H1]|exact H2]. intros ->. assert (r1 = rc) as -> by (eapply is_rec_inj; eassumption). exact (ne (eq_sym H2)).
  - intro rd'. destruct (N.eq_dec rd' rd) as [->|ne].
    + rewrite upd_same. pose proof (i_recs_nodup _ _ _ _ I rd) as (ND & LE). split.
      * clear -ND. induction (recs gh rd) as [|y l IH]; [constructor|].
        inversion ND as [|? ? N1 N2]; subst. cbn [remove]. destruct (N.eq_dec r y); [auto|]. constructor; [|auto].
        intro K. apply in_remove in K. tauto.
      * apply N.le_trans with (N.of_nat (length (recs gh rd))); [|exact LE]. clear. induction (recs gh rd) as [|y l IH]; [reflexivity|].
        cbn [remove]. destruct (N.eq_dec r y); cbn [length]; lia.
    + rewrite upd_other by assumption. apply (i_recs_nodup _ _ _ _ I).
  - intros a r2 a' r2' H H' E1 E2. apply RECF in H, H'. apply (i_idx _ _ _ _ I _ _ _ _ (proj2 H) (proj2 H') E1 E2).
  - intros a H. assert (E : G' a = G a) by (apply NR'; congruence). rewrite E in *.
    destruct (memb a (r_aux rc)) eqn:M; [|apply (i_aux _ _ _ _ I a H)].
    apply memb_in in M. rewrite <- E, (GA a M) in H. discriminate.
  - intros a r0 H. destruct (memb a (r_aux rc)) eqn:M; [discriminate|].
    assert (NI : ~ In a (r_aux rc)) by (intro K; apply memb_in in K; congruence).
    destruct (i_auxo _ _ _ _ I a r0 H) as (H1 & r1 & H2 & H3). split; [rewrite F; [exact H1|congruence|congruence|exact NI]|].
    exists r1. rewrite RECF. split; [split; [|exact H2]|exact H3]. intros ->.
    assert (r1 = rc) as -> by (eapply is_rec_inj; eassumption). contradiction.
Qed.
