(** Preservation of the invariant by the creation and destruction of realms. *)
From Coq Require Import NArith ZArith List Bool Lia ZifyBool ZifyN.
From Verif Require Import Bits S2tte S2tteFacts State Granule Wp RecFields Measure RmiRtt RmiRealm RmiRec Inv InvTree InvStep InvStep2.
Import ListNotations.
Local Open Scope N_scope.

(** [z] is the root table number [k] of [n] tables from [base]. *)
Definition root_idx (base n z : N) : option N :=
  if (base <=? z) && ((z - base) mod 4096 =? 0) && ((z - base) / 4096 <? n) then Some ((z - base) / 4096) else None.
Lemma root_idx_some : forall base n z k, root_idx base n z = Some k <-> z = base + k * 4096 /\ k < n.
Proof.
  intros. unfold root_idx. destruct ((base <=? z) && ((z - base) mod 4096 =? 0) && ((z - base) / 4096 <? n)) eqn:E.
  - split; [intro H; injection H as <-|intros [-> H]; f_equal]; lia.
  - split; [discriminate|]. intros [-> H]. exfalso. lia.
Qed.
Lemma root_idx_none : forall base n z, root_idx base n z = None <-> forall k, k < n -> z <> base + k * 4096.
Proof.
  intros. split.
  - intros H k Hk E. rewrite (proj2 (root_idx_some base n z k)) in H by auto. discriminate.
  - intro H. destruct (root_idx base n z) as [k|] eqn:E; [|reflexivity]. apply root_idx_some in E. destruct E as [E1 E2].
    exfalso. exact (H k E2 E1).
Qed.

Section Create.
Variables (c : cfg) (gh : ghost) (G G' : N -> granule) (V V' : N -> bool).
Hypothesis I : Inv c gh G V.
Variables (rd : N) (d : rdesc) (e0 : N -> N -> entry).
Let x := rd_ctx d.
Let base := g_rtt x.
Let nr := num_root_rtts x.

Definition create_ghost : ghost :=
  mkGh (fun z => match root_idx base nr z with Some k => Some (rd, s2_sl x, k) | None => own gh z end)
       (fun z => match root_idx base nr z with Some k => e0 k | None => ent gh z end)
       (dmap gh) (recs gh) (auxo gh).

Lemma inv_realm_create :
  g_state (G rd) = DELEGATED -> (forall k, k < nr -> g_state (G (base + k * 4096)) = DELEGATED /\ base + k * 4096 <> rd) ->
  rd_ok c d -> V (vmid x) = false -> (forall z, V' z = upd V (vmid x) true z) ->
  G' rd = mkG RD 0 (CRd d) ->
  (forall k, k < nr -> exists f, G' (base + k * 4096) = mkG RTT 0 (CW f) /\ words_ok (enable_lpa2 x) (s2_sl x) f (e0 k)) ->
  (forall k j, k < nr -> j < 512 -> counted (e0 k j) = false /\ entry_ok gh x rd (s2_sl x) (512 * k + j) (e0 k j)) ->
  (forall z, z <> rd -> root_idx base nr z = None -> G' z = G z) ->
  Inv c create_ghost G' V'.
Proof.
  intros Srd SR OK Vf HV Grd GR E0 F.
  assert (DEC : forall z, z = rd \/ (exists k, k < nr /\ z = base + k * 4096) \/ (z <> rd /\ root_idx base nr z = None)).
  { intro z. destruct (N.eq_dec z rd); [auto|]. destruct (root_idx base nr z) as [k|] eqn:E; [|auto].
    apply root_idx_some in E. right. left. exists k. tauto. }
  assert (RN : forall z, g_state (G z) <> DELEGATED -> root_idx base nr z = None).
  { intros z H. apply root_idx_none. intros k Hk ->. apply H, SR, Hk. }
  assert (NR : forall z, g_state (G z) <> DELEGATED -> G' z = G z).
  { intros z H. apply F; [congruence|apply RN, H]. }
  assert (NR' : forall z, g_state (G' z) <> RD -> g_state (G' z) <> RTT -> G' z = G z).
  { intros z H1 H2. destruct (DEC z) as [->|[(k & Hk & ->)|(K1 & K2)]].
    - rewrite Grd in H1. cbn in H1. congruence.
    - destruct (GR k Hk) as (f & E & _). rewrite E in H2. cbn in H2. congruence.
    - apply F; assumption. }
  assert (RDF : forall a d2, is_rd G' a d2 <-> (a = rd /\ d2 = d) \/ is_rd G a d2).
  { intros a d2. unfold is_rd. destruct (DEC a) as [->|[(k & Hk & ->)|(K1 & K2)]].
    - rewrite Grd, Srd. cbn. split; [intros [_ H]; left; split; [reflexivity|congruence]|intros [[_ ->]|[H _]]; [auto|discriminate]].
    - destruct (GR k Hk) as (f & E & _), (SR k Hk) as (S1 & S2). rewrite E, S1. cbn.
      split; [intros [H _]; discriminate|intros [[H _]|[H _]]; [contradiction|discriminate]].
    - rewrite F by assumption. tauto. }
  assert (RECF : forall a r, is_rec G' a r <-> is_rec G a r).
  { intros a r. unfold is_rec. split; intros [S M].
    - assert (E : G' a = G a) by (apply NR'; congruence). rewrite E in *. auto.
    - rewrite NR by congruence. auto. }
  assert (OWN : forall z k, own gh z = Some k -> own create_ghost z = Some k /\ ent create_ghost z = ent gh z).
  { intros z k H. destruct k as ((r0 & l0) & t0). pose proof (own_rtt _ _ _ _ I _ _ _ _ H) as S.
    cbn. rewrite RN by congruence. auto. }
  assert (OWNR : forall k, k < nr -> own create_ghost (base + k * 4096) = Some (rd, s2_sl x, k) /\ ent create_ghost (base + k * 4096) = e0 k).
  { intros k Hk. cbn. rewrite (proj2 (root_idx_some base nr _ k)) by auto. auto. }
  assert (NORD : forall r d2, is_rd G r d2 -> r <> rd) by (intros r d2 [H _]; congruence).
  assert (NORECS : recs gh rd = []).
  { destruct (recs gh rd) as [|y l] eqn:E; [reflexivity|]. destruct (i_recs _ _ _ _ I rd y ltac:(rewrite E; left; reflexivity)) as (rc & [S M] & H).
    destruct (i_rec _ _ _ _ I y S) as (_ & rc0 & d0 & H2 & H3 & _). assert (rc0 = rc) as -> by congruence.
    rewrite H in H3. apply NORD in H3. congruence. }
  assert (MONO : forall x2 rd2 l2 n2 e2, entry_ok gh x2 rd2 l2 n2 e2 -> entry_ok create_ghost x2 rd2 l2 n2 e2).
  { intros x2 rd2 l2 n2 e2. apply entry_ok_mono; [|auto]. intros b k Hk _. apply OWN, Hk. }
  constructor.
  - intros a H. destruct (DEC a) as [->|[(k & Hk & ->)|(K1 & K2)]].
    + apply (i_gran _ _ _ _ I). congruence.
    + apply (i_gran _ _ _ _ I). rewrite (proj1 (SR k Hk)). discriminate.
    + rewrite F in H by assumption. apply (i_gran _ _ _ _ I a H).
  - intros a H. rewrite NR' in * by congruence. apply (i_ns _ _ _ _ I a H).
  - intros a H. rewrite NR' in * by congruence. apply (i_del _ _ _ _ I a H).
  - intros a. destruct (DEC a) as [->|[(k & Hk & ->)|(K1 & K2)]].
    + rewrite Grd. exact Logic.I.
    + destruct (GR k Hk) as (f & E & _). rewrite E. exact Logic.I.
    + rewrite F by assumption. apply (i_kinds _ _ _ _ I).
  - intros a H. rewrite NR' in * by congruence. apply (i_data _ _ _ _ I a H).
  - intros a rd' p H. destruct (i_dmap _ _ _ _ I _ _ _ H) as (H1 & l & b & pa & H2 & H3 & H4).
    split; [rewrite NR by congruence; exact H1|]. destruct (OWN _ _ H2) as (O1 & O2). exists l, b, pa. rewrite O1, O2. auto.
  - intros a H. destruct (N.eq_dec a rd) as [->|ne].
    + rewrite Grd. exists d. cbn. rewrite NORECS. auto.
    + destruct (DEC a) as [->|[(k & Hk & ->)|(K1 & K2)]]; [congruence| |].
      * destruct (GR k Hk) as (f & E & _). rewrite E in H. discriminate.
      * rewrite F in * by assumption. apply (i_rd _ _ _ _ I a H).
  - intros a d2 k R Hk. apply RDF in R. destruct R as [(-> & ->)|R]; [apply OWNR, Hk|].
    apply OWN. apply (i_root _ _ _ _ I _ _ _ R Hk).
  - intros a H. destruct (DEC a) as [->|[(k & Hk & ->)|(K1 & K2)]].
    + rewrite Grd in H. discriminate.
    + rewrite (proj1 (OWNR k Hk)). discriminate.
    + rewrite F in H by assumption. cbn. rewrite K2. apply (i_rtt _ _ _ _ I a H).
  - intros a rd' l t O. destruct (DEC a) as [->|[(k & Hk & ->)|(K1 & K2)]].
    + cbn in O. destruct (root_idx base nr rd) as [k|] eqn:E.
      * apply root_idx_some in E. destruct E as [E1 E2]. destruct (SR k E2) as (_ & E3). congruence.
      * apply (own_rtt _ _ _ _ I) in O. congruence.
    + destruct (OWNR k Hk) as (O1 & O2). rewrite O1 in O. apply some3_inj in O. destruct O as (<- & <- & <-).
      exists d. split; [apply RDF; auto|]. destruct (GR k Hk) as (f & E & W). rewrite E. fold x.
      assert (X : ctx_ok x) by apply OK. pose proof (ctx_sl _ X).
      constructor; cbn [g_state g_ref g_mem]; rewrite ?O2.
      * reflexivity.
      * lia.
      * exists f. auto.
      * symmetry. apply cnt_0. intros j Hj. apply E0; assumption.
      * intros j Hj. apply MONO, E0; assumption.
      * left. auto.
    + cbn in O. rewrite K2 in O. destruct (i_own _ _ _ _ I _ _ _ _ O) as (d1 & R1 & T). exists d1.
      split; [apply RDF; auto|]. rewrite F by assumption. destruct (OWN _ _ O) as (_ & O2). destruct T.
      constructor; rewrite ?O2; try assumption.
      * intros j Hj. apply MONO. auto.
      * destruct t_parent as [P|(P1 & P2 & b & P3 & P4)]; [left; exact P|right]. split; [exact P1|]. split; [exact P2|].
        destruct (OWN _ _ P3) as (O3 & O4). exists b. rewrite O3, O4. auto.
  - intros v Hv. rewrite HV in Hv. destruct (N.eq_dec v (vmid x)) as [->|ne].
    + exists rd, d. rewrite RDF. auto.
    + rewrite upd_other in Hv by assumption. destruct (i_vmid _ _ _ _ I v Hv) as (r1 & d1 & R1 & E1). exists r1, d1. rewrite RDF. auto.
  - intros r1 d1 R1. rewrite HV. apply RDF in R1. destruct R1 as [(-> & ->)|R1]; [apply upd_same|].
    pose proof (i_vmid_set _ _ _ _ I _ _ R1) as K. rewrite upd_other; [exact K|congruence].
  - intros r1 d1 r2 d2 R1 R2 E. apply RDF in R1, R2. destruct R1 as [(-> & ->)|R1], R2 as [(-> & ->)|R2].
    + reflexivity.
    + pose proof (i_vmid_set _ _ _ _ I _ _ R2). fold x in E. congruence.
    + pose proof (i_vmid_set _ _ _ _ I _ _ R1). fold x in E. congruence.
    + apply (i_vmid_inj _ _ _ _ I _ _ _ _ R1 R2 E).
  - intros a H. rewrite NR' in * by congruence. destruct (i_rec _ _ _ _ I a H) as (H1 & rc0 & d1 & H2 & H3 & H4). split; [exact H1|].
    exists rc0, d1. rewrite RDF. auto.
  - intros rd' a H. destruct (i_recs _ _ _ _ I _ _ H) as (r1 & H1 & H2). exists r1. rewrite RECF. auto.
  - apply (i_recs_nodup _ _ _ _ I).
  - intros a r2 a' r2' H H'. apply RECF in H, H'. apply (i_idx _ _ _ _ I _ _ _ _ H H').
  - intros a H. rewrite NR' in * by congruence. apply (i_aux _ _ _ _ I a H).
  - intros a r0 H. destruct (i_auxo _ _ _ _ I a r0 H) as (H1 & r1 & H2 & H3). split; [rewrite NR by congruence; exact H1|].
    exists r1. rewrite RECF. auto.
Qed.
End Create.

Section Destroy.
Variables (c : cfg) (gh : ghost) (G G' : N -> granule) (V V' : N -> bool).
Hypothesis I : Inv c gh G V.
Variables (rd : N) (d : rdesc).
Hypothesis R : is_rd G rd d.
Let x := rd_ctx d.
Let base := g_rtt x.
Let nr := num_root_rtts x.

Definition destroy_ghost : ghost :=
  mkGh (fun z => match root_idx base nr z with Some k => None | None => own gh z end)
       (ent gh) (dmap gh) (recs gh) (auxo gh).

(** A realm whose root tables are empty has no other table and no data *)
Lemma empty_roots_own : (forall k, k < nr -> g_ref (G (base + k * 4096)) = 0) ->
  forall a l t, own gh a = Some (rd, l, t) -> l = s2_sl x /\ t < nr /\ a = base + t * 4096 /\ cnt (ent gh a) = 0.
Proof.
  intros Z a l t O. pose proof (inv_own _ _ _ _ I _ _ _ _ _ O R) as T. fold x in T.
  assert (RT : forall b u, own gh b = Some (rd, s2_sl x, u) -> u < nr /\ b = base + u * 4096 /\ cnt (ent gh b) = 0).
  { intros b u Ob. pose proof (inv_own _ _ _ _ I _ _ _ _ _ Ob R) as T2. fold x in T2.
    destruct (t_parent _ _ _ _ _ _ _ T2) as [(_ & P1 & P2)|(P1 & _)]; [|lia].
    split; [exact P1|]. split; [exact P2|]. rewrite <- (t_ref _ _ _ _ _ _ _ T2), P2. apply Z, P1. }
  destruct (Z.eq_dec l (s2_sl x)) as [->|ne]; [split; [reflexivity|apply RT, O]|].
  exfalso. pose proof (t_level_ok _ _ _ _ _ _ _ T).
  destruct (own_root_above _ _ _ _ I _ _ _ _ _ O R ltac:(fold x; lia)) as (b & u & i & e & B1 & B2 & B3). fold x in B1.
  destruct (RT _ _ B1) as (_ & _ & C). rewrite cnt_0 in C. specialize (C i B2). rewrite B3 in C. discriminate.
Qed.
Lemma empty_roots_dmap : (forall k, k < nr -> g_ref (G (base + k * 4096)) = 0) ->
  forall a p, dmap gh a <> Some (rd, p).
Proof.
  intros Z a p H. destruct (i_dmap _ _ _ _ I _ _ _ H) as (_ & l & b & pa & H2 & H3 & _).
  destruct (empty_roots_own Z _ _ _ H2) as (_ & _ & _ & C). rewrite cnt_0 in C.
  specialize (C _ (mod512_lt (p / pg l))). destruct (ent gh b ((p / pg l) mod 512)); discriminate.
Qed.

Lemma inv_realm_destroy :
  g_ref (G rd) = 0 -> (forall k, k < nr -> g_ref (G (base + k * 4096)) = 0) ->
  (forall z, V' z = upd V (vmid x) false z) ->
  G' rd = mkG DELEGATED 0 czero -> (forall k, k < nr -> G' (base + k * 4096) = mkG DELEGATED 0 czero) ->
  (forall z, z <> rd -> root_idx base nr z = None -> G' z = G z) ->
  Inv c destroy_ghost G' V'.
Proof.
  intros Zrd Z HV Grd GR F. pose proof R as [Srd Mrd].
  pose proof (empty_roots_own Z) as EO. pose proof (empty_roots_dmap Z) as ED.
  assert (ROOT : forall k, k < nr -> own gh (base + k * 4096) = Some (rd, s2_sl x, k)).
  { intros k Hk. apply (i_root _ _ _ _ I _ _ _ R Hk). }
  assert (SR : forall k, k < nr -> g_state (G (base + k * 4096)) = RTT).
  { intros k Hk. eapply own_rtt; [exact I|]. apply ROOT, Hk. }
  assert (DEC : forall z, z = rd \/ (exists k, k < nr /\ z = base + k * 4096) \/ (z <> rd /\ root_idx base nr z = None)).
  { intro z. destruct (N.eq_dec z rd); [auto|]. destruct (root_idx base nr z) as [k|] eqn:E; [|auto].
    apply root_idx_some in E. right. left. exists k. tauto. }
  assert (RN : forall z, g_state (G z) <> RTT -> root_idx base nr z = None).
  { intros z H. apply root_idx_none. intros k Hk ->. apply H, SR, Hk. }
  assert (NR : forall z, g_state (G z) <> RTT -> z <> rd -> G' z = G z).
  { intros z H nz. apply F; [exact nz|apply RN, H]. }
  assert (NR' : forall z, g_state (G' z) <> DELEGATED -> G' z = G z).
  { intros z H. destruct (DEC z) as [->|[(k & Hk & ->)|(K1 & K2)]].
    - rewrite Grd in H. cbn in H. congruence.
    - rewrite (GR k Hk) in H. cbn in H. congruence.
    - apply F; assumption. }
  assert (RDF : forall a d2, is_rd G' a d2 <-> a <> rd /\ is_rd G a d2).
  { intros a d2. unfold is_rd. destruct (DEC a) as [->|[(k & Hk & ->)|(K1 & K2)]].
    - rewrite Grd. cbn. split; [intros [H _]; discriminate|intros [H _]; congruence].
    - rewrite (GR k Hk), (SR k Hk). cbn. split; [intros [H _]; discriminate|intros [_ [H _]]; discriminate].
    - rewrite F by assumption. tauto. }
  assert (RECF : forall a r, is_rec G' a r <-> is_rec G a r).
  { intros a r. unfold is_rec. split; intros [S M].
    - assert (E : G' a = G a) by (apply NR'; congruence). rewrite E in *. auto.
    - rewrite NR by congruence. auto. }
  assert (NORECS : recs gh rd = []).
  { destruct (i_rd _ _ _ _ I rd Srd) as (_ & _ & _ & H). destruct (recs gh rd); [reflexivity|cbn in H; lia]. }
  assert (RECRD : forall a rc, is_rec G a rc -> r_g_rd rc <> rd).
  { intros a rc [S M] E. destruct (i_rec _ _ _ _ I a S) as (_ & rc0 & d0 & H2 & _ & _ & H5 & _).
    assert (rc0 = rc) as -> by congruence. rewrite E, NORECS in H5. destruct H5. }
  assert (OWN : forall z r1 l t, own gh z = Some (r1, l, t) -> r1 <> rd -> own destroy_ghost z = Some (r1, l, t)).
  { intros z r1 l t H ne. cbn. destruct (root_idx base nr z) as [k|] eqn:E; [|exact H].
    apply root_idx_some in E. destruct E as (-> & Hk). rewrite (ROOT k Hk) in H. congruence. }
  assert (OWNI : forall z r1 l t, own destroy_ghost z = Some (r1, l, t) -> r1 <> rd /\ own gh z = Some (r1, l, t) /\ root_idx base nr z = None).
  { intros z r1 l t H. cbn in H. destruct (root_idx base nr z) as [k|] eqn:E; [discriminate|]. split; [|auto].
    intros ->. destruct (EO _ _ _ H) as (_ & Ht & -> & _). rewrite root_idx_none in E. exact (E t Ht eq_refl). }
  assert (MONO : forall x2 rd2 l2 n2 e2, rd2 <> rd -> entry_ok gh x2 rd2 l2 n2 e2 -> entry_ok destroy_ghost x2 rd2 l2 n2 e2).
  { intros x2 rd2 l2 n2 e2 ne EO2. eapply entry_ok_mono; [| |exact EO2]; [|auto]. intros b k Hk Ee. subst e2.
    destruct EO2 as (_ & _ & Ob). rewrite Ob in Hk. injection Hk as <-. apply OWN; assumption. }
  constructor.
  - intros a H. destruct (DEC a) as [->|[(k & Hk & ->)|(K1 & K2)]].
    + apply (i_gran _ _ _ _ I). congruence.
    + apply (i_gran _ _ _ _ I). rewrite (SR k Hk). discriminate.
    + rewrite F in H by assumption. apply (i_gran _ _ _ _ I a H).
  - intros a H. rewrite NR' in * by congruence. apply (i_ns _ _ _ _ I a H).
  - intros a H. destruct (DEC a) as [->|[(k & Hk & ->)|(K1 & K2)]]; [exact Grd|apply GR, Hk|].
    rewrite F in * by assumption. apply (i_del _ _ _ _ I a H).
  - intros a. destruct (DEC a) as [->|[(k & Hk & ->)|(K1 & K2)]].
    + rewrite Grd. exact Logic.I.
    + rewrite (GR k Hk). exact Logic.I.
    + rewrite F by assumption. apply (i_kinds _ _ _ _ I).
  - intros a H. rewrite NR' in * by congruence. apply (i_data _ _ _ _ I a H).
  - intros a rd' p H. destruct (i_dmap _ _ _ _ I _ _ _ H) as (H1 & l & b & pa & H2 & H3 & H4).
    split; [rewrite NR by congruence; exact H1|]. exists l, b, pa. split; [|auto]. apply OWN; [exact H2|].
    intros ->. exact (ED _ _ H).
  - intros a H. rewrite NR' in * by congruence. apply (i_rd _ _ _ _ I a H).
  - intros a d2 k R2 Hk. apply RDF in R2. destruct R2 as (ne & R2). apply OWN; [|exact ne]. apply (i_root _ _ _ _ I _ _ _ R2 Hk).
  - intros a H. destruct (DEC a) as [->|[(k & Hk & ->)|(K1 & K2)]].
    + rewrite Grd in H. discriminate.
    + rewrite (GR k Hk) in H. discriminate.
    + rewrite F in H by assumption. cbn. rewrite K2. apply (i_rtt _ _ _ _ I a H).
  - intros a rd' l t O. destruct (OWNI _ _ _ _ O) as (ne & O1 & K2).
    destruct (i_own _ _ _ _ I _ _ _ _ O1) as (d1 & R1 & T). exists d1.
    split; [apply RDF; auto|]. pose proof (t_state _ _ _ _ _ _ _ T). rewrite F by (assumption || congruence). destruct T.
    constructor; try assumption.
    + intros j Hj. apply MONO; [exact ne|]. apply t_entries. exact Hj.
    + destruct t_parent as [P|(P1 & P2 & b & P3 & P4)]; [left; exact P|right]. split; [exact P1|]. split; [exact P2|].
      exists b. split; [apply OWN; assumption|exact P4].
  - intros v Hv. rewrite HV in Hv. destruct (N.eq_dec v (vmid x)) as [->|ne]; [rewrite upd_same in Hv; discriminate|].
    rewrite upd_other in Hv by assumption. destruct (i_vmid _ _ _ _ I v Hv) as (r1 & d1 & R1 & E1). exists r1, d1. rewrite RDF.
    split; [split; [|exact R1]|exact E1]. intros ->. rewrite (is_rd_inj _ _ _ _ R1 R) in E1. fold x in E1. congruence.
  - intros r1 d1 R1. rewrite HV. apply RDF in R1. destruct R1 as (ne & R1).
    rewrite upd_other; [apply (i_vmid_set _ _ _ _ I _ _ R1)|]. intro E. apply ne. eapply (i_vmid_inj _ _ _ _ I); eassumption.
  - intros r1 d1 r2 d2 R1 R2 E. apply RDF in R1, R2. apply (i_vmid_inj _ _ _ _ I _ _ _ _ (proj2 R1) (proj2 R2) E).
  - intros a H. rewrite NR' in * by congruence. destruct (i_rec _ _ _ _ I a H) as (H1 & rc0 & d1 & H2 & H3 & H4). split; [exact H1|].
    exists rc0, d1. rewrite RDF. split; [exact H2|]. split; [|exact H4]. split; [|exact H3].
    eapply RECRD. split; [exact H|exact H2].
  - intros rd' a H. destruct (i_recs _ _ _ _ I _ _ H) as (r1 & H1 & H2). exists r1. rewrite RECF. auto.
  - apply (i_recs_nodup _ _ _ _ I).
  - intros a r2 a' r2' H H'. apply RECF in H, H'. apply (i_idx _ _ _ _ I _ _ _ _ H H').
  - intros a H. rewrite NR' in * by congruence. apply (i_aux _ _ _ _ I a H).
  - intros a r0 H. destruct (i_auxo _ _ _ _ I a r0 H) as (H1 & r1 & H2 & H3). split; [rewrite NR by congruence; exact H1|].
    exists r1. rewrite RECF. auto.
Qed.
End Destroy.
