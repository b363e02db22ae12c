(** What free does to the blocks *)
From Coq Require Import NArith ZArith List Bool Lia ZifyBool ZifyN.
From Verif Require Import Heap SpecHeap HeapList HeapFacts HeapOps.
Import ListNotations.
Local Open Scope N_scope.
Ltac Zify.zify_post_hook ::= Z.div_mod_to_equations.

(** Line 289 *)
Lemma release_ok : forall m h B1 B2 b0 F a m', HC m h (B1 ++ b0 :: B2) F 0 -> ba b0 = a -> bal b0 = true -> m' = st m a ALLOCf 0 ->
  HC m' h (B1 ++ mkBlk a (bs b0) false :: B2) F a /\ ld m' a PFREEf = 0 /\ ld m' a NFREEf = 0 /\ (forall w, outside (addrs (B1 ++ b0 :: B2)) w -> m' w = m w).
Proof.
  intros m h B1 B2 b0 F a m' H Ea AL Em. remember (B1 ++ b0 :: B2) as B eqn:EB. remember (B1 ++ mkBlk a (bs b0) false :: B2) as B' eqn:EB'.
  assert (I : In b0 B) by (rewrite EB; apply mid_cases; auto). pose proof (in_addr _ _ I) as IA. rewrite Ea in IA. pose proof (c_tiles _ _ _ _ _ H) as T.
  pose proof (tiles_sep _ _ _ T) as SE. pose proof (rep_st _ _ _ _ _ ALLOCf 0 SE (rep0 (addrs B) m) IA eq_refl) as R. rewrite <- Em in R. destruct R as [R RF].
  assert (AD : addrs B' = addrs B) by (rewrite EB, EB'; apply addrs_same; symmetry; exact Ea).
  assert (NF : ~ In a F).
  { intro K. apply (c_in _ _ _ _ _ H) in K. destruct K as (_ & b & Ib & Eb & Fb). assert (b = b0) by (apply (tiles_fun _ _ _ _ _ T Ib I); congruence). congruence. }
  destruct (hdr_full _ _ _ _ _ H b0 I (HC_nz _ _ _ _ _ _ H I)) as (E0 & E1 & E2 & E3 & E4 & E5 & E6 & E7). rewrite Ea in E0, E1, E2, E3, E4, E5, E6, E7.
  rewrite (prev_notin F a NF) in E5. rewrite (next_notin F a NF) in E6.
  split; [|split; [|split; [|exact RF]]].
  2:{ pose proof (R a PFREEf IA eq_refl) as X. sv X. rewrite E5 in X. exact X. }
  2:{ pose proof (R a NFREEf IA eq_refl) as X. sv X. rewrite E6 in X. exact X. }
  rewrite EB in T. constructor.
  - exact (c_first _ _ _ _ _ H).
  - exact (c_pos _ _ _ _ _ H).
  - exact (c_end _ _ _ _ _ H).
  - rewrite EB'. destruct B1; discriminate.
  - rewrite EB'. rewrite tiles_app in *. cbn [tiles ba bs] in *. rewrite Ea in T. exact T.
  - exact (c_free _ _ _ _ _ H).
  - exact (c_nd _ _ _ _ _ H).
  - intro x. pose proof (c_in _ _ _ _ _ H x) as CI. rewrite CI. split.
    + intros (Z & b & Ib & Eb & Fb). assert (N : b <> b0) by congruence. rewrite EB in Ib. apply mid_cases in Ib. destruct Ib as [Ib|Ib]; [contradiction|].
      destruct (other_ne _ _ _ _ _ _ T Ib) as [_ Nb]. split; [congruence|]. exists b. split; [|auto]. rewrite EB'. apply mid_cases. auto.
    + intros (Z & b & Ib & Eb & Fb). rewrite EB' in Ib. apply mid_cases in Ib. destruct Ib as [->|Ib]; [cbn in Eb; congruence|].
      destruct (other_ne _ _ _ _ _ _ T Ib) as [Ib' Nb]. rewrite <- EB in Ib'. split; [|eauto]. rewrite <- Eb. exact (HC_nz _ _ _ _ _ _ H Ib').
  - rewrite AD. intros b Ib. rewrite EB' in Ib. apply mid_cases in Ib.
    assert (Q : forall f, f < 8 -> ld m' (ba b) f = vput (ld m) a ALLOCf 0 (ba b) f).
    { intros f Hf. apply R; [|exact Hf]. destruct Ib as [->|Ib]; [exact IA|]. rewrite EB. apply in_addr. exact (proj1 (other_ne _ _ _ _ _ _ T Ib)). }
    unfold hdr_lim. rewrite !Q by reflexivity. clear Q. fs. destruct Ib as [->|Ib]; cbn [ba bs bal].
    + rewrite N.eqb_refl. split; [exact E0|]. split; [exact E1|]. split; [reflexivity|]. split; [exact E3|]. split; [exact E4|]. split; [exact E7|]. congruence.
    + destruct (other_ne _ _ _ _ _ _ T Ib) as [Ib' Nb]. rewrite <- EB in Ib'. rewrite Ea in Nb. rewrite (proj2 (N.eqb_neq _ _) Nb).
      destruct (hdr_full _ _ _ _ _ H b Ib' (HC_nz _ _ _ _ _ _ H Ib')) as (G0 & G1 & G2 & G3 & G4 & G5 & G6 & G7). auto 10.
  - intros b Ib. rewrite EB' in Ib. apply mid_cases in Ib. destruct Ib as [->|Ib]; [cbn [ba]; rewrite <- Ea; exact (c_mod _ _ _ _ _ H b0 I)|].
    apply (c_mod _ _ _ _ _ H). rewrite EB. apply mid_cases. auto.
Qed.

(** Lines 346-352 *)
Lemma prepend_ok : forall m h B F a m' h', HC m h B F a -> In a (addrs B) -> ld m a PFREEf = 0 -> (forall b, In b B -> ba b = a -> bal b = false) ->
  m' = st_if (st m a NFREEf (hc_free h)) (hc_free h) PFREEf a -> with_free h h' a ->
  HC m' h' B (a :: F) 0 /\ (forall w, outside (addrs B) w -> m' w = m w).
Proof.
  intros m h B F a m' h' H IA PF FA Em (X1 & X2 & X3 & _ & X4). pose proof (c_tiles _ _ _ _ _ H) as T. pose proof (tiles_sep _ _ _ T) as SE.
  pose proof (tiles_nz _ _ _ T (c_pos _ _ _ _ _ H)) as NZ. rewrite (c_free _ _ _ _ _ H) in Em.
  assert (Q : hd 0 F = 0 \/ In (hd 0 F) (addrs B)).
  { destruct (N.eq_dec (hd 0 F) 0) as [Z|Z]; [auto|]. right. apply (HC_fin _ _ _ _ _ _ H). apply hd_nz, Z. }
  pose proof (rep_st _ _ _ _ _ NFREEf (hd 0 F) SE (rep0 (addrs B) m) IA eq_refl) as R.
  apply (rep_if _ _ _ _ (hd 0 F) PFREEf a SE NZ) in R; [|exact Q|reflexivity]. rewrite <- Em in R. destruct R as [R RF]. split; [|exact RF].
  assert (NF : ~ In a F) by (intro K; apply (c_in _ _ _ _ _ H) in K; destruct K as (K & _); congruence).
  assert (Za : a <> 0) by (intro K; apply NZ; rewrite <- K; exact IA).
  constructor; rewrite ?X1, ?X2, ?X3.
  - exact (c_first _ _ _ _ _ H).
  - exact (c_pos _ _ _ _ _ H).
  - exact (c_end _ _ _ _ _ H).
  - exact (c_ne _ _ _ _ _ H).
  - exact T.
  - exact X4.
  - constructor; [exact NF|exact (c_nd _ _ _ _ _ H)].
  - intro x. pose proof (c_in _ _ _ _ _ H x) as CI. cbn [In]. rewrite CI. split.
    + intros [<-|(N & b & Ib & Eb & Fb)].
      * split; [exact Za|]. apply addr_in in IA. destruct IA as (b & Ib & Eb). exists b. auto.
      * split; [|eauto]. rewrite <- Eb. exact (HC_nz _ _ _ _ _ _ H Ib).
    + intros (Z & b & Ib & Eb & Fb). destruct (N.eq_dec a x) as [->|N]; [auto|]. right. split; [congruence|]. eauto.
  - intros b Ib. pose proof (in_addr _ _ Ib) as IAb. destruct (c_hdr _ _ _ _ _ H b Ib) as (G0 & G1 & G2 & G3 & G4 & G7 & G56).
    unfold hdr_lim. rewrite !R by (exact IAb || reflexivity). fs.
    split; [exact G0|]. split; [exact G1|]. split; [exact G2|]. split; [exact G3|]. split; [exact G4|]. split; [exact G7|]. intros _.
    destruct (N.eqb_spec (ba b) a) as [E|N].
    + rewrite E. split.
      * destruct (N.eqb_spec a (hd 0 F)) as [K|_]; [exfalso; apply NF; rewrite K; apply hd_nz; congruence|]. unfold prev_of. cbn [prev_from]. rewrite N.eqb_refl. exact PF.
      * cbn [next_of]. rewrite N.eqb_refl. reflexivity.
    + destruct (G56 N) as [G5 G6]. destruct (in_dec N.eq_dec (ba b) F) as [IF|IF].
      * rewrite pre_prev, pre_next by assumption. rewrite <- G5, <- G6. auto.
      * rewrite (prev_notin (a :: F)), (next_notin (a :: F)) by (cbn; intros [K|K]; [congruence|contradiction]).
        rewrite (prev_notin F) in G5 by exact IF. rewrite (next_notin F) in G6 by exact IF. split; [|exact G6].
        destruct (N.eqb_spec (ba b) (hd 0 F)) as [K|_]; [exfalso; apply IF; rewrite K; apply hd_nz; rewrite <- K; exact (HC_nz _ _ _ _ _ _ H Ib)|exact G5].
  - exact (c_mod _ _ _ _ _ H).
Qed.

(** Lines 292-303 *)
Lemma join_prev_ok : forall m h B0 B2 p b0 F m1 m2 m3 m', HC m h (B0 ++ p :: b0 :: B2) F (ba b0) -> bal p = false -> bal b0 = false ->
  m1 = st m (ba p) SIZEf (wrap (ld m (ba p) SIZEf + (HDR + ld m (ba b0) SIZEf))) -> m2 = st m1 (ba p) NEXTf (ld m1 (ba b0) NEXTf) ->
  m3 = st_if m2 (ld m2 (ba p) NEXTf) PREVf (ba p) -> m' = zero m3 (ba b0) HDR ->
  HC m' h (B0 ++ mkBlk (ba p) (bs p + 64 + bs b0) false :: B2) F 0 /\ (forall w, outside (addrs (B0 ++ p :: b0 :: B2)) w -> m' w = m w).
Proof.
  intros m h B0 B2 p b0 F m1 m2 m3 m' H Fp F0 D1 D2 D3 D4. remember (B0 ++ p :: b0 :: B2) as B eqn:EB. remember (B0 ++ mkBlk (ba p) (bs p + 64 + bs b0) false :: B2) as B' eqn:EB'.
  remember (ba p) as pa eqn:Ep. remember (ba b0) as a eqn:Ea. symmetry in Ep, Ea.
  pose proof (c_tiles _ _ _ _ _ H) as T. pose proof (c_pos _ _ _ _ _ H) as PO. pose proof (tiles_sep _ _ _ T) as SE. pose proof (tiles_nz _ _ _ T PO) as NZ. pose proof (tiles_nd _ _ _ T) as NDA.
  assert (Ip : In p B) by (rewrite EB; apply mid_cases2; auto). assert (I0 : In b0 B) by (rewrite EB; apply mid_cases2; auto).
  pose proof (in_addr _ _ Ip) as IAp. pose proof (in_addr _ _ I0) as IA. rewrite Ep in IAp. rewrite Ea in IA.
  assert (AB : addrs B = (addrs B0 ++ [pa]) ++ a :: addrs B2) by (rewrite EB, addrs_app, <- app_assoc; cbn; rewrite Ep, Ea; reflexivity).
  assert (AB' : addrs B' = (addrs B0 ++ [pa]) ++ addrs B2) by (rewrite EB', addrs_app, <- app_assoc; reflexivity).
  assert (NPA : pa <> a).
  { intro K. rewrite AB in NDA. apply NoDup_remove_2 in NDA. apply NDA. rewrite !in_app_iff. cbn. auto. }
  rewrite AB in NDA, NZ.
  assert (PV : prev_of (addrs B) a = pa) by (rewrite AB, l_prev by exact NDA; apply last_last).
  destruct (HC_ptr _ _ _ _ _ a H) as (_ & _ & _ & Q4). remember (next_of (addrs B) a) as nx eqn:Enx.
  assert (NXA : nx <> a) by (rewrite Enx, AB; apply next_ne; assumption).
  assert (NXP : nx <> pa).
  { intro K. destruct (N.eq_dec pa 0) as [Z|Z]; [apply NZ; rewrite <- Z, <- AB; exact IAp|].
    pose proof (prev_ne_next _ _ _ NDA NZ) as X. rewrite <- AB, PV, <- Enx in X. apply X; congruence. }
  rewrite <- AB in NZ.
  destruct (c_hdr _ _ _ _ _ H p Ip) as (P0 & P1 & P2 & P3 & P4 & P7 & P56). destruct (c_hdr _ _ _ _ _ H b0 I0) as (E0 & E1 & E2 & E3 & E4 & E7 & _).
  rewrite Ep in P0, P1, P2, P3, P4, P7, P56. rewrite Ea in E0, E1, E2, E3, E4, E7.
  pose proof (tiles_in _ _ _ _ T Ip) as [TP1 TP2]. pose proof (tiles_in _ _ _ _ T I0) as [TB1 TB2]. pose proof (c_end _ _ _ _ _ H) as CE.
  assert (TT : ba p + 64 + bs p = ba b0 /\ tiles B' (hc_buf h) (hc_buf h + hc_len h)).
  { rewrite EB in T. rewrite EB'. rewrite tiles_app in *. destruct T as (c & T1 & T2). cbn [tiles] in T2. destruct T2 as (U1 & U2 & U3). split; [lia|]. exists c. split; [exact T1|]. cbn [tiles ba bs].
    split; [congruence|]. replace (c + 64 + (bs p + 64 + bs b0)) with (c + 64 + bs p + 64 + bs b0) by lia. exact U3. }
  destruct TT as [TT T']. rewrite Ep, Ea in *.
  assert (SZ : wrap (ld m pa SIZEf + (HDR + ld m a SIZEf)) = bs p + 64 + bs b0).
  { unfold SIZEf, HDR, wrap. rewrite P1, E1. rewrite N.mod_small; lia. }
  rewrite SZ in D1.
  pose proof (rep_st _ _ _ _ _ SIZEf (bs p + 64 + bs b0) SE (rep0 (addrs B) m) IAp eq_refl) as R. rewrite <- D1 in R.
  assert (L1 : ld m1 a NEXTf = nx) by (pose proof (proj1 R a NEXTf IA eq_refl) as X; sv X; rewrite E4, <- Enx in X; exact X).
  rewrite L1 in D2. apply (rep_st _ _ _ _ pa NEXTf nx SE) in R; [|exact IAp|reflexivity]. rewrite <- D2 in R.
  assert (L2 : ld m2 pa NEXTf = nx) by (pose proof (proj1 R pa NEXTf IAp eq_refl) as X; sv X; rewrite N.eqb_refl in X; exact X).
  rewrite L2 in D3. apply (rep_if _ _ _ _ nx PREVf pa SE NZ) in R; [|exact Q4|reflexivity]. rewrite <- D3 in R.
  assert (SUB : forall x, In x (addrs B') -> In x (addrs B) /\ x <> a).
  { intros x Ix. rewrite AB, AB' in *. split; [apply mid_cases; auto|]. intros ->. exact (NoDup_remove_2 _ _ _ NDA Ix). }
  destruct (rep_zero _ (addrs B') _ _ _ a SE R IA SUB) as [RV RF]. change (zero m3 a 64) with (zero m3 a HDR) in RV, RF. rewrite <- D4 in RV, RF. clear R. split; [|exact RF].
  rewrite AB in NZ.
  assert (BC : forall b, In b B' -> b = mkBlk pa (bs p + 64 + bs b0) false \/ (In b B /\ ba b <> pa /\ ba b <> a)).
  { intros b Ib. rewrite EB' in Ib. apply mid_cases in Ib. destruct Ib as [Ib|Ib]; [auto|]. right. assert (Ib2 : In b B) by (rewrite EB; apply mid_cases2; auto).
    rewrite EB' in T'. destruct (other_ne _ _ _ _ _ _ T' Ib) as [Ib3 Nb]. cbn [ba] in Nb. split; [exact Ib2|]. split; [exact Nb|]. rewrite <- EB' in Ib3. exact (proj2 (SUB _ (in_addr _ _ Ib3))). }
  constructor.
  - exact (c_first _ _ _ _ _ H).
  - exact PO.
  - exact (c_end _ _ _ _ _ H).
  - rewrite EB'. destruct B0; discriminate.
  - exact T'.
  - exact (c_free _ _ _ _ _ H).
  - exact (c_nd _ _ _ _ _ H).
  - intro x. pose proof (c_in _ _ _ _ _ H x) as CI. rewrite CI. split.
    + intros (N & b & Ib & Eb & Fb). split; [rewrite <- Eb; exact (HC_nz _ _ _ _ _ _ H Ib)|]. rewrite EB in Ib. apply mid_cases2 in Ib. destruct Ib as [->|[->|Ib]].
      * exists (mkBlk pa (bs p + 64 + bs b0) false). split; [rewrite EB'; apply mid_cases; auto|]. cbn. split; [congruence|reflexivity].
      * congruence.
      * exists b. split; [rewrite EB'; apply mid_cases; auto|auto].
    + intros (Z & b & Ib & Eb & Fb). destruct (BC b Ib) as [->|(Ib2 & Nb1 & Nb2)].
      * cbn in Eb. subst x. split; [exact NPA|]. exists p. auto.
      * split; [congruence|]. exists b. auto.
  - intros b Ib. pose proof (in_addr _ _ Ib) as IAb. apply hdr_lim_of. unfold hdr_ok. rewrite !RV by (exact IAb || reflexivity). rewrite AB'. fs.
    destruct (BC b Ib) as [->|(Ib2 & Nb1 & Nb2)]; cbn [ba bs bal] in *.
    + assert (Zp : pa <> 0) by (rewrite <- Ep; exact (HC_nz _ _ _ _ _ _ H Ip)).
      rewrite (rem_prev' _ _ _ NDA NZ pa Zp NPA), (rem_next' _ _ _ NDA NZ pa Zp NPA), <- AB, PV, <- Enx, !N.eqb_refl. rewrite (proj2 (N.eqb_neq pa nx)) by congruence.
      destruct (P56 NPA) as [P5 P6]. rewrite P2, Fp. auto 10.
    + destruct (hdr_full _ _ _ _ _ H b Ib2 Nb2) as (G0 & G1 & G2 & G3 & G4 & G5 & G6 & G7). pose proof (HC_nz _ _ _ _ _ _ H Ib2) as Zb.
      rewrite (rem_prev' _ _ _ NDA NZ (ba b) Zb Nb2), (rem_next' _ _ _ NDA NZ (ba b) Zb Nb2), <- AB, PV, <- Enx. rewrite !(proj2 (N.eqb_neq _ _) Nb1). rewrite <- G3, <- G4, <- G5, <- G6. auto 10.
  - intros b Ib. destruct (BC b Ib) as [->|(Ib2 & _)]; [cbn [ba]; rewrite <- Ep; exact (c_mod _ _ _ _ _ H p Ip)|exact (c_mod _ _ _ _ _ H b Ib2)].
Qed.

(** Lines 316-323: a block leaves the list of free blocks *)
Lemma unlink_ok : forall m h B F1 F2 a mm h', HC m h B (F1 ++ a :: F2) 0 ->
  mm = st_if (st_if m (prev_of (F1 ++ a :: F2) a) NFREEf (next_of (F1 ++ a :: F2) a)) (next_of (F1 ++ a :: F2) a) PFREEf (prev_of (F1 ++ a :: F2) a) ->
  with_free h h' (if prev_of (F1 ++ a :: F2) a =? 0 then next_of (F1 ++ a :: F2) a else hc_free h) ->
  HC mm h' B (F1 ++ F2) a.
Proof.
  intros m h B F1 F2 a mm h' H Em (X1 & X2 & X3 & _ & X4). pose proof (c_tiles _ _ _ _ _ H) as T. pose proof (tiles_sep _ _ _ T) as SE.
  pose proof (tiles_nz _ _ _ T (c_pos _ _ _ _ _ H)) as NZ. destruct (HC_ptr _ _ _ _ _ a H) as (Q1 & Q2 & _). pose proof (c_nd _ _ _ _ _ H) as ND. pose proof (HC_fnz _ _ _ _ _ H) as NZF.
  pose proof (rep_if _ _ _ _ _ NFREEf (next_of (F1 ++ a :: F2) a) SE NZ (rep0 (addrs B) m) Q1 eq_refl) as R.
  apply (rep_if _ _ _ _ (next_of (F1 ++ a :: F2) a) PFREEf (prev_of (F1 ++ a :: F2) a) SE NZ) in R; [|exact Q2|reflexivity]. rewrite <- Em in R. destruct R as [R _].
  constructor; rewrite ?X1, ?X2, ?X3.
  - exact (c_first _ _ _ _ _ H).
  - exact (c_pos _ _ _ _ _ H).
  - exact (c_end _ _ _ _ _ H).
  - exact (c_ne _ _ _ _ _ H).
  - exact T.
  - rewrite X4, (rem_hd F1 F2 a ND NZF). destruct (_ =? 0); [reflexivity|exact (c_free _ _ _ _ _ H)].
  - exact (NoDup_remove_1 _ _ _ ND).
  - intro x. pose proof (c_in _ _ _ _ _ H x) as CI. split.
    + intro Ix. assert (Nx : x <> a) by (intros ->; exact (NoDup_remove_2 _ _ _ ND Ix)). split; [exact Nx|]. apply CI. apply in_rem; assumption.
    + intros (Nx & b & Ib & Eb & Fb). apply (in_rem F1 F2 a); [exact Nx|]. apply CI. split; [rewrite <- Eb; exact (HC_nz _ _ _ _ _ _ H Ib)|]. eauto.
  - intros b Ib. pose proof (in_addr _ _ Ib) as IAb. pose proof (HC_nz _ _ _ _ _ _ H Ib) as Zb. destruct (hdr_full _ _ _ _ _ H b Ib Zb) as (G0 & G1 & G2 & G3 & G4 & G5 & G6 & G7).
    unfold hdr_lim. rewrite !R by (exact IAb || reflexivity). fs.
    split; [exact G0|]. split; [exact G1|]. split; [exact G2|]. split; [exact G3|]. split; [exact G4|]. split; [exact G7|]. intro Nb.
    rewrite (rem_prev' _ _ _ ND NZF (ba b) Zb Nb), (rem_next' _ _ _ ND NZF (ba b) Zb Nb), <- G5, <- G6. auto.
  - exact (c_mod _ _ _ _ _ H).
Qed.

(** Lines 325-339: the block takes the place of the next one *)
Lemma join_next_ok : forall m0 mm m4 h B1 B2 b0 n G1 G2 m5 m6 m7 m8 m9 m' h',
  HC mm h (B1 ++ b0 :: n :: B2) (G1 ++ ba n :: G2) (ba b0) -> bal b0 = false -> bal n = false ->
  rep (addrs (B1 ++ b0 :: n :: B2)) m0 m4 (vput (vput (ld mm) (ba b0) SIZEf (bs b0 + 64 + bs n)) (ba b0) NEXTf (next_of (addrs (B1 ++ b0 :: n :: B2)) (ba n))) ->
  m5 = st m4 (ba b0) PFREEf (ld m4 (ba n) PFREEf) -> m6 = st m5 (ba b0) NFREEf (ld m5 (ba n) NFREEf) ->
  with_free h h' (if ld m6 (ba b0) PFREEf =? 0 then ba b0 else hc_free h) ->
  m7 = st_if m6 (ld m6 (ba b0) PFREEf) NFREEf (ba b0) -> m8 = st_if m7 (ld m7 (ba b0) NFREEf) PFREEf (ba b0) ->
  m9 = st_if m8 (ld m8 (ba b0) NEXTf) PREVf (ba b0) -> m' = zero m9 (ba n) HDR ->
  HC m' h' (B1 ++ mkBlk (ba b0) (bs b0 + 64 + bs n) false :: B2) (G1 ++ ba b0 :: G2) 0 /\ (forall w, outside (addrs (B1 ++ b0 :: n :: B2)) w -> m' w = m0 w).
Proof.
  intros m0 mm m4 h B1 B2 b0 n G1 G2 m5 m6 m7 m8 m9 m' h' H F0 Fn R D5 D6 (X1 & X2 & X3 & _ & X4) D7 D8 D9 D10.
  remember (B1 ++ b0 :: n :: B2) as B eqn:EB. remember (B1 ++ mkBlk (ba b0) (bs b0 + 64 + bs n) false :: B2) as B' eqn:EB'. remember (G1 ++ ba n :: G2) as F eqn:EF.
  remember (ba n) as na eqn:En. remember (ba b0) as a eqn:Ea. symmetry in En, Ea.
  pose proof (c_tiles _ _ _ _ _ H) as T. pose proof (c_pos _ _ _ _ _ H) as PO. pose proof (tiles_sep _ _ _ T) as SE. pose proof (tiles_nz _ _ _ T PO) as NZ. pose proof (tiles_nd _ _ _ T) as NDA.
  assert (In_ : In n B) by (rewrite EB; apply mid_cases2; auto). assert (I0 : In b0 B) by (rewrite EB; apply mid_cases2; auto).
  pose proof (in_addr _ _ In_) as IAn. pose proof (in_addr _ _ I0) as IA. rewrite En in IAn. rewrite Ea in IA.
  assert (AB : addrs B = (addrs B1 ++ [a]) ++ na :: addrs B2) by (rewrite EB, addrs_app, <- app_assoc; cbn; rewrite En, Ea; reflexivity).
  assert (AB' : addrs B' = (addrs B1 ++ [a]) ++ addrs B2) by (rewrite EB', addrs_app, <- app_assoc; reflexivity).
  assert (NAN : a <> na).
  { intro K. rewrite AB in NDA. apply NoDup_remove_2 in NDA. apply NDA. rewrite !in_app_iff. cbn. auto. }
  assert (NNA : na <> a) by congruence. pose proof NZ as NZA. rewrite AB in NDA, NZA.
  assert (PV : prev_of (addrs B) na = a) by (rewrite AB, l_prev by exact NDA; apply last_last).
  destruct (HC_ptr _ _ _ _ _ na H) as (Q1 & Q2 & _ & Q4). remember (next_of (addrs B) na) as nx eqn:Enx. remember (prev_of F na) as pf eqn:Epf. remember (next_of F na) as nf eqn:Enf.
  assert (Za : a <> 0) by (intro K; apply NZ; rewrite <- K; exact IA). assert (Zn : na <> 0) by (intro K; apply NZ; rewrite <- K; exact IAn).
  assert (NXN : nx <> na) by (rewrite Enx, AB; apply next_ne; assumption).
  assert (NXA : nx <> a).
  { intro K. pose proof (prev_ne_next _ _ _ NDA NZA) as X. rewrite <- AB, PV, <- Enx in X. apply X; congruence. }
  pose proof (c_nd _ _ _ _ _ H) as ND. pose proof (HC_fnz _ _ _ _ _ H) as NZF. pose proof (c_in _ _ _ _ _ H) as CIN.
  assert (NF : ~ In a F) by (intro K; apply CIN in K; destruct K as (K & _); congruence).
  assert (PFA : pf <> a) by (intro K; apply NF; rewrite <- K, Epf; apply prev_in; congruence).
  assert (NFA : nf <> a) by (intro K; apply NF; rewrite <- K, Enf; apply next_in; congruence).
  assert (NF' : ~ In a (G1 ++ na :: G2)) by (rewrite <- EF; exact NF). pose proof NZF as NZF'. pose proof ND as ND'. rewrite EF in ND', NZF'.
  assert (PFN : pf <> na) by (rewrite Epf, EF; apply prev_ne; assumption). assert (NFN : nf <> na) by (rewrite Enf, EF; apply next_ne; assumption).
  destruct (hdr_full _ _ _ _ _ H n In_) as (P0 & P1 & P2 & P3 & P4 & P5 & P6 & P7); [congruence|]. destruct (c_hdr _ _ _ _ _ H b0 I0) as (E0 & E1 & E2 & E3 & E4 & E7 & _).
  rewrite En in P0, P1, P2, P3, P4, P5, P6, P7. rewrite Ea in E0, E1, E2, E3, E4, E7. rewrite <- Epf in P5. rewrite <- Enf in P6. rewrite <- Enx in P4.
  assert (T' : tiles B' (hc_buf h) (hc_buf h + hc_len h)).
  { rewrite EB in T. rewrite EB'. rewrite tiles_app in *. destruct T as (c & T1 & T2). cbn [tiles] in T2. destruct T2 as (U1 & U2 & U3). exists c. split; [exact T1|]. cbn [tiles ba bs].
    split; [congruence|]. replace (c + 64 + (bs b0 + 64 + bs n)) with (c + 64 + bs b0 + 64 + bs n) by lia. exact U3. }
  assert (ne1 : (a =? na) = false) by (apply N.eqb_neq; exact NAN). assert (ne2 : (na =? a) = false) by (apply N.eqb_neq; exact NNA).
  assert (ne3 : (a =? pf) = false) by (apply N.eqb_neq; congruence). assert (ne4 : (a =? nf) = false) by (apply N.eqb_neq; congruence). assert (ne5 : (a =? nx) = false) by (apply N.eqb_neq; congruence).
  assert (L4 : ld m4 na PFREEf = pf) by (pose proof (proj1 R na PFREEf IAn eq_refl) as X; sv X; rewrite P5 in X; exact X).
  rewrite L4 in D5. apply (rep_st _ _ _ _ a PFREEf pf SE) in R; [|exact IA|reflexivity]. rewrite <- D5 in R.
  assert (L5 : ld m5 na NFREEf = nf) by (pose proof (proj1 R na NFREEf IAn eq_refl) as X; sv X; rewrite P6 in X; exact X).
  rewrite L5 in D6. apply (rep_st _ _ _ _ a NFREEf nf SE) in R; [|exact IA|reflexivity]. rewrite <- D6 in R.
  assert (L6 : ld m6 a PFREEf = pf) by (pose proof (proj1 R a PFREEf IA eq_refl) as X; sv X; rewrite N.eqb_refl in X; exact X).
  rewrite L6 in D7, X4. apply (rep_if _ _ _ _ pf NFREEf a SE NZ) in R; [|exact Q1|reflexivity]. rewrite <- D7 in R.
  assert (L7 : ld m7 a NFREEf = nf) by (pose proof (proj1 R a NFREEf IA eq_refl) as X; sv X; rewrite ne3, N.eqb_refl in X; exact X).
  rewrite L7 in D8. apply (rep_if _ _ _ _ nf PFREEf a SE NZ) in R; [|exact Q2|reflexivity]. rewrite <- D8 in R.
  assert (L8 : ld m8 a NEXTf = nx) by (pose proof (proj1 R a NEXTf IA eq_refl) as X; sv X; rewrite N.eqb_refl in X; exact X).
  rewrite L8 in D9. apply (rep_if _ _ _ _ nx PREVf a SE NZ) in R; [|exact Q4|reflexivity]. rewrite <- D9 in R.
  assert (SUB : forall x, In x (addrs B') -> In x (addrs B) /\ x <> na).
  { intros x Ix. rewrite AB, AB' in *. split; [apply mid_cases; auto|]. intros ->. exact (NoDup_remove_2 _ _ _ NDA Ix). }
  destruct (rep_zero _ (addrs B') _ _ _ na SE R IAn SUB) as [RV RF]. change (zero m9 na 64) with (zero m9 na HDR) in RV, RF. rewrite <- D10 in RV, RF. clear R. split; [|exact RF].
  assert (BC : forall b, In b B' -> b = mkBlk a (bs b0 + 64 + bs n) false \/ (In b B /\ ba b <> a /\ ba b <> na)).
  { intros b Ib. rewrite EB' in Ib. apply mid_cases in Ib. destruct Ib as [Ib|Ib]; [auto|]. right. assert (Ib2 : In b B) by (rewrite EB; apply mid_cases2; auto).
    rewrite EB' in T'. destruct (other_ne _ _ _ _ _ _ T' Ib) as [Ib3 Nb]. cbn [ba] in Nb. split; [exact Ib2|]. split; [exact Nb|]. rewrite <- EB' in Ib3. exact (proj2 (SUB _ (in_addr _ _ Ib3))). }
  constructor; rewrite ?X1, ?X2, ?X3.
  - exact (c_first _ _ _ _ _ H).
  - exact PO.
  - exact (c_end _ _ _ _ _ H).
  - rewrite EB'. destruct B1; discriminate.
  - exact T'.
  - rewrite X4, (rep_hd G1 G2 na ND' NZF'), <- EF, <- Epf. destruct (pf =? 0); [reflexivity|exact (c_free _ _ _ _ _ H)].
  - apply NoDup_Add with (a := a) (l := G1 ++ G2); [apply Add_app|]. split; [exact (NoDup_remove_1 _ _ _ ND')|]. intro K. apply NF'. apply mid_cases. auto.
  - intro x. pose proof (CIN x) as CI. rewrite mid_cases. split.
    + intros [->|Ix].
      * split; [exact Za|]. exists (mkBlk a (bs b0 + 64 + bs n) false). split; [rewrite EB'; apply mid_cases; auto|auto].
      * assert (Nx : x <> na) by (intros ->; exact (NoDup_remove_2 _ _ _ ND' Ix)). destruct (proj1 CI) as (N & b & Ib & Eb & Fb); [rewrite EF; apply mid_cases; auto|].
        split; [rewrite <- Eb; exact (HC_nz _ _ _ _ _ _ H Ib)|]. exists b. split; [|auto]. rewrite EB'. apply mid_cases. right. rewrite EB in Ib. apply mid_cases2 in Ib. destruct Ib as [->|[->|Ib]]; [congruence|congruence|exact Ib].
    + intros (Z & b & Ib & Eb & Fb). destruct (BC b Ib) as [->|(Ib2 & Nb1 & Nb2)].
      * cbn in Eb. auto.
      * right. assert (K : In x F) by (apply CI; split; [congruence|]; exists b; auto). rewrite EF in K. apply mid_cases in K. destruct K as [K|K]; [congruence|exact K].
  - intros b Ib. pose proof (in_addr _ _ Ib) as IAb. apply hdr_lim_of. unfold hdr_ok. rewrite !RV by (exact IAb || reflexivity). rewrite AB'. fs.
    destruct (BC b Ib) as [->|(Ib2 & Nb1 & Nb2)]; cbn [ba bs bal] in *.
    + rewrite (rem_prev' _ _ _ NDA NZA a Za NAN), (rem_next' _ _ _ NDA NZA a Za NAN), <- AB, PV, <- Enx, !N.eqb_refl, ne3, ne4, ne5.
      rewrite (rep_next_new G1 G2 na), (rep_prev_new G1 G2 na) by assumption. rewrite <- EF, <- Epf, <- Enf. rewrite E2, F0. auto 10.
    + destruct (hdr_full _ _ _ _ _ H b Ib2 Nb1) as (U0 & U1 & U2 & U3 & U4 & U5 & U6 & U7). pose proof (HC_nz _ _ _ _ _ _ H Ib2) as Zb.
      rewrite (rem_prev' _ _ _ NDA NZA (ba b) Zb Nb2), (rem_next' _ _ _ NDA NZA (ba b) Zb Nb2), <- AB, PV, <- Enx. rewrite !(proj2 (N.eqb_neq _ _) Nb1).
      rewrite (rep_prev' G1 G2 na ND' NZF' a NF' Za (ba b) Zb Nb2 Nb1), (rep_next' G1 G2 na ND' NZF' a NF' Za (ba b) Zb Nb2 Nb1), <- EF, <- Epf, <- Enf.
      rewrite <- U3, <- U4, <- U5, <- U6. auto 10.
  - intros b Ib. destruct (BC b Ib) as [->|(Ib2 & _)]; [cbn [ba]; rewrite <- Ea; exact (c_mod _ _ _ _ _ H b0 I0)|exact (c_mod _ _ _ _ _ H b Ib2)].
Qed.
