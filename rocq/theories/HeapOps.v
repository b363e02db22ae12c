(** What calloc and free do to the blocks *)
From Coq Require Import NArith ZArith List Bool Lia ZifyBool ZifyN.
From Verif Require Import Heap SpecHeap HeapList HeapFacts.
Import ListNotations.
Local Open Scope N_scope.
Ltac Zify.zify_post_hook ::= Z.div_mod_to_equations.

Ltac fs := unfold hdr_ok, vput; cbn [N.eqb Pos.eqb ba bs bal]; repeat rewrite andb_false_r; repeat rewrite andb_true_r.
Ltac sv X := unfold vput, MAGIC1f, MAGIC2f, SIZEf, ALLOCf, PREVf, NEXTf, NFREEf, PFREEf in X; cbn [N.eqb Pos.eqb] in X; repeat rewrite andb_false_r in X; repeat rewrite andb_true_r in X.
Ltac eqd := repeat match goal with |- context [?a =? ?b] => destruct (N.eqb_spec a b) end.

Lemma addrs_same : forall B1 b b' B2, ba b' = ba b -> addrs (B1 ++ b' :: B2) = addrs (B1 ++ b :: B2).
Proof. intros B1 b b' B2 E. rewrite !addrs_app. cbn [addrs map]. rewrite E. reflexivity. Qed.
Lemma mid_cases : forall T (B1 B2 : list T) b x, In x (B1 ++ b :: B2) <-> x = b \/ In x (B1 ++ B2).
Proof. intros. rewrite !in_app_iff. cbn. intuition. Qed.
Lemma mid_cases2 : forall T (B1 B2 : list T) b c x, In x (B1 ++ b :: c :: B2) <-> x = b \/ x = c \/ In x (B1 ++ B2).
Proof. intros. rewrite !in_app_iff. cbn. intuition. Qed.
Lemma other_ne : forall B1 B2 b x s e, tiles (B1 ++ b :: B2) s e -> In x (B1 ++ B2) -> In x (B1 ++ b :: B2) /\ ba x <> ba b.
Proof.
  intros B1 B2 b x s e T I. assert (I' : In x (B1 ++ b :: B2)) by (apply mid_cases; auto). split; [exact I'|]. intro E.
  assert (x = b) as -> by (apply (tiles_fun _ _ _ _ _ T I'); [apply mid_cases; auto|exact E]).
  pose proof (tiles_nd _ _ _ T) as ND. rewrite addrs_app in ND. cbn [addrs map] in ND. apply NoDup_remove_2 in ND. apply ND. fold addrs. rewrite <- addrs_app. apply in_addr, I.
Qed.

(** The context with the list of free blocks *)
Definition with_free (h h' : hctx) (v : N) : Prop :=
  hc_buf h' = hc_buf h /\ hc_len h' = hc_len h /\ hc_first h' = hc_first h /\ hc_verify h' = hc_verify h /\ hc_free h' = v.
Lemma with_set : forall h v, with_free h (set_free h v) v.
Proof. repeat split. Qed.

(** A free block is allocated as a whole: lines 184-200 *)
Section Take.
  Variables (m : words) (h : hctx) (B1 B2 : list blk) (b0 : blk) (F1 F2 : list N) (B B' : list blk) (F : list N) (cur pf nf : N).
  Hypothesis EB : B = B1 ++ b0 :: B2.
  Hypothesis EB' : B' = B1 ++ mkBlk cur (bs b0) true :: B2.
  Hypothesis EF : F = F1 ++ cur :: F2.
  Hypothesis Ec : ba b0 = cur.
  Hypothesis H : HC m h B F 0.
  Hypothesis FR : bal b0 = false.
  Hypothesis Epf : pf = prev_of F cur.
  Hypothesis Enf : nf = next_of F cur.

  Lemma take_reads : let m1 := st m cur ALLOCf 1 in ld m1 cur PFREEf = pf /\ ld m1 cur NFREEf = nf /\ ld (st_if m1 pf NFREEf nf) cur PFREEf = pf.
  Proof.
    assert (I : In b0 B) by (rewrite EB; apply mid_cases; auto). pose proof (in_addr _ _ I) as IA. pose proof (tiles_sep _ _ _ (c_tiles _ _ _ _ _ H)) as SE.
    pose proof (tiles_nz _ _ _ (c_tiles _ _ _ _ _ H) (c_pos _ _ _ _ _ H)) as NZ. destruct (HC_ptr _ _ _ _ _ cur H) as (Q1 & Q2 & _). rewrite Ec in IA. rewrite <- Epf in Q1.
    pose proof (rep_st _ _ _ _ _ ALLOCf 1 SE (rep0 (addrs B) m) IA eq_refl) as R1.
    pose proof (rep_if _ _ _ _ pf NFREEf nf SE NZ R1 Q1 eq_refl) as R2. destruct (hdr_full _ _ _ _ _ H b0 I (HC_nz _ _ _ _ _ _ H I)) as (_ & _ & _ & _ & _ & E5 & E6 & _).
    pose proof (proj1 R1 cur PFREEf IA eq_refl) as X1. pose proof (proj1 R1 cur NFREEf IA eq_refl) as X2. pose proof (proj1 R2 cur PFREEf IA eq_refl) as X3.
    rewrite Ec, <- ?Epf, <- ?Enf in E5, E6. rewrite <- Epf in E5. rewrite <- Enf in E6. cbv zeta. sv X1. sv X2. sv X3. rewrite E5 in X1, X3. rewrite E6 in X2. repeat split; [exact X1|exact X2|exact X3].
  Qed.

  Lemma take_ok : forall m1 m2 m3 m' h', m1 = st m cur ALLOCf 1 -> m2 = st_if m1 pf NFREEf nf -> m3 = st_if m2 nf PFREEf pf ->
    m' = st (st m3 cur PFREEf 0) cur NFREEf 0 -> with_free h h' (if pf =? 0 then nf else hc_free h) ->
    HC m' h' B' (F1 ++ F2) 0 /\ (forall w, outside (addrs B) w -> m' w = m w).
  Proof.
    intros m1 m2 m3 m' h' Em1 Em2 Em3 Em' (X1 & X2 & X3 & _ & X4).
    assert (I : In b0 B) by (rewrite EB; apply mid_cases; auto). pose proof (in_addr _ _ I) as IA. pose proof (tiles_sep _ _ _ (c_tiles _ _ _ _ _ H)) as SE.
    pose proof (tiles_nz _ _ _ (c_tiles _ _ _ _ _ H) (c_pos _ _ _ _ _ H)) as NZ. destruct (HC_ptr _ _ _ _ _ cur H) as (Q1 & Q2 & _).
    rewrite Ec in IA. rewrite <- Epf in Q1. rewrite <- Enf in Q2.
    pose proof (c_nd _ _ _ _ _ H) as ND. pose proof (HC_fnz _ _ _ _ _ H) as NZF.
    pose proof (rep_st _ _ _ _ _ ALLOCf 1 SE (rep0 (addrs B) m) IA eq_refl) as R1. rewrite <- Em1 in R1.
    pose proof (rep_if _ _ _ _ pf NFREEf nf SE NZ R1 Q1 eq_refl) as R2. rewrite <- Em2 in R2.
    pose proof (rep_if _ _ _ _ nf PFREEf pf SE NZ R2 Q2 eq_refl) as R3. rewrite <- Em3 in R3.
    pose proof (rep_st _ _ _ _ _ NFREEf 0 SE (rep_st _ _ _ _ _ PFREEf 0 SE R3 IA eq_refl) IA eq_refl) as R. rewrite <- Em' in R.
    clear R1 R2 R3. set (V' := vput _ _ _ _) in R. destruct R as [R RF].
    assert (AD : addrs B' = addrs B) by (rewrite EB, EB'; apply addrs_same; symmetry; exact Ec). assert (Zc : cur <> 0) by (intro K; apply NZ; rewrite <- K; exact IA).
    split; [|exact RF].
    pose proof (c_tiles _ _ _ _ _ H) as T. rewrite EB in T. rewrite EF in ND, NZF.
    constructor; rewrite ?X1, ?X2, ?X3.
    - exact (c_first _ _ _ _ _ H).
    - exact (c_pos _ _ _ _ _ H).
    - exact (c_end _ _ _ _ _ H).
    - rewrite EB'. destruct B1; discriminate.
    - rewrite EB'. rewrite tiles_app in *. cbn [tiles ba bs] in *. rewrite Ec in T. exact T.
    - rewrite X4, (rem_hd F1 F2 cur ND NZF), <- EF, <- Epf, <- Enf. destruct (pf =? 0); [reflexivity|exact (c_free _ _ _ _ _ H)].
    - exact (NoDup_remove_1 _ _ _ ND).
    - intro a. pose proof (c_in _ _ _ _ _ H a) as CI. split.
      + intro Ia. assert (Na : a <> cur) by (intros ->; exact (NoDup_remove_2 _ _ _ ND Ia)). destruct (proj1 CI) as (Za & b & Ib & Eb & Fb).
        { rewrite EF. apply in_rem; assumption. }
        split; [exact Za|]. exists b. split; [|auto]. rewrite EB'. apply mid_cases. right. rewrite EB in Ib. apply mid_cases in Ib. destruct Ib as [->|Ib]; [|exact Ib]. congruence.
      + intros (Za & b & Ib & Eb & Fb). rewrite EB' in Ib. apply mid_cases in Ib. destruct Ib as [->|Ib]; [discriminate Fb|]. destruct (other_ne _ _ _ _ _ _ T Ib) as [Ib' Nb].
        apply (in_rem F1 F2 cur); [congruence|]. rewrite <- EF. apply CI. split; [exact Za|]. exists b. rewrite EB. auto.
    - rewrite AD. intros b Ib. rewrite EB' in Ib. apply mid_cases in Ib.
      assert (Q : forall f, f < 8 -> ld m' (ba b) f = V' (ba b) f).
      { intros f Hf. apply R; [|exact Hf]. destruct Ib as [->|Ib]; [exact IA|]. apply in_addr. rewrite EB. exact (proj1 (other_ne _ _ _ _ _ _ T Ib)). }
      apply hdr_lim_of. unfold hdr_ok. rewrite !Q by reflexivity. clear Q.
      assert (NP : pf <> cur) by (rewrite Epf, EF; apply prev_ne; assumption). assert (NN : nf <> cur) by (rewrite Enf, EF; apply next_ne; assumption).
      destruct Ib as [->|Ib].
      + destruct (hdr_full _ _ _ _ _ H b0 I (HC_nz _ _ _ _ _ _ H I)) as (E0 & E1 & E2 & E3 & E4 & E5 & E6 & E7). cbn [ba bs bal]. rewrite Ec in E0, E1, E2, E3, E4, E5, E6, E7. unfold V'.
        fs. rewrite !N.eqb_refl. rewrite (prev_notin (F1 ++ F2)), (next_notin (F1 ++ F2)) by (exact (NoDup_remove_2 _ _ _ ND)).
        repeat (split; [assumption || reflexivity|]). assumption.
      + destruct (other_ne _ _ _ _ _ _ T Ib) as [Ib' Nb]. rewrite <- EB in Ib'. destruct (hdr_full _ _ _ _ _ H b Ib' (HC_nz _ _ _ _ _ _ H Ib')) as (E0 & E1 & E2 & E3 & E4 & E5 & E6 & E7). unfold V'. fs.
        assert (Zb : ba b <> 0) by (intro K; apply NZ; rewrite <- K; apply in_addr, Ib'). rewrite Ec in Nb.
        rewrite (rem_prev' F1 F2 cur ND NZF (ba b) Zb Nb), (rem_next' F1 F2 cur ND NZF (ba b) Zb Nb), <- EF, <- Epf, <- Enf.
        rewrite <- E5, <- E6. rewrite (proj2 (N.eqb_neq _ _) Nb). cbn [andb]. auto 10.
    - intros b Ib. rewrite EB' in Ib. apply mid_cases in Ib. destruct Ib as [->|Ib]; [cbn [ba]; rewrite <- Ec; exact (c_mod _ _ _ _ _ H b0 I)|].
      apply (c_mod _ _ _ _ _ H). rewrite EB. apply mid_cases. auto.
  Qed.
End Take.

(** A free block is split, the first part is allocated: lines 213-244 *)
Section Split.
  Variables (m : words) (h : hctx) (B1 B2 : list blk) (b0 : blk) (F1 F2 : list N) (B B' : list blk) (F : list N) (cur new len : N).
  Hypothesis EB : B = B1 ++ b0 :: B2.
  Hypothesis EB' : B' = B1 ++ mkBlk cur len true :: mkBlk new (bs b0 - len - 64) false :: B2.
  Hypothesis EF : F = F1 ++ cur :: F2.
  Hypothesis Ec : ba b0 = cur.
  Hypothesis En : new = cur + 64 + len.
  Hypothesis H : HC m h B F 0.
  Hypothesis FR : bal b0 = false.
  Hypothesis HL : len + 64 <= bs b0.
  Hypothesis LM : len mod 8 = 0.

  Lemma split_ok : forall m1 m2 m3 m4 m5 m6 m7 m8 m9 m10 m11 m' h',
    m1 = st m new SIZEf (ld m cur SIZEf - len - HDR) -> m2 = st m1 new ALLOCf 0 -> m3 = st m2 new PREVf cur -> m4 = st m3 new NEXTf (ld m3 cur NEXTf) ->
    m5 = st (st m4 new MAGIC1f MAGIC1) new MAGIC2f MAGIC2 -> m6 = st_if m5 (ld m5 new NEXTf) PREVf new -> m7 = st m6 new PFREEf (ld m6 cur PFREEf) ->
    m8 = st m7 new NFREEf (ld m7 cur NFREEf) -> m9 = st_if m8 (ld m8 new PFREEf) NFREEf new -> m10 = st_if m9 (ld m9 new NFREEf) PFREEf new ->
    m11 = st (st (st m10 cur ALLOCf 1) cur SIZEf len) cur NEXTf new -> m' = st (st m11 cur PFREEf 0) cur NFREEf 0 ->
    with_free h h' (if ld m8 new PFREEf =? 0 then new else hc_free h) ->
    HC m' h' B' (F1 ++ new :: F2) 0 /\ (forall w, outside (addrs B') w -> m' w = m w).
  Proof.
    intros m1 m2 m3 m4 m5 m6 m7 m8 m9 m10 m11 m' h' D1 D2 D3 D4 D5 D6 D7 D8 D9 D10 D11 D12 (X1 & X2 & X3 & _ & X4).
    assert (I : In b0 B) by (rewrite EB; apply mid_cases; auto). pose proof (in_addr _ _ I) as IA0.
    pose proof (c_tiles _ _ _ _ _ H) as T. rewrite EB in T. pose proof (c_pos _ _ _ _ _ H) as PO.
    assert (T' : tiles B' (hc_buf h) (hc_buf h + hc_len h)).
    { rewrite EB'. rewrite tiles_app in *. destruct T as (c & T1 & T2). exists c. split; [exact T1|]. cbn [tiles ba bs] in *. rewrite Ec in T2. destruct T2 as (E & T2).
      split; [exact E|]. split; [lia|]. replace (c + 64 + len + 64 + (bs b0 - len - 64)) with (c + 64 + bs b0) by lia. exact T2. }
    pose proof (tiles_sep _ _ _ T') as SE. pose proof (tiles_nz _ _ _ T' PO) as NZ. pose proof (tiles_nd _ _ _ T') as NDA'. pose proof (tiles_nd _ _ _ T) as NDA. pose proof (tiles_nz _ _ _ T PO) as NZA.
    assert (IA : In cur (addrs B')) by (rewrite EB', addrs_app, in_app_iff; cbn; auto).
    assert (IN : In new (addrs B')) by (rewrite EB', addrs_app, in_app_iff; cbn; auto).
    assert (SUB : forall a, In a (addrs B) -> In a (addrs B')).
    { intro a. rewrite EB, EB', !addrs_app. cbn [addrs map ba]. rewrite mid_cases, mid_cases2, Ec. clear. tauto. }
    assert (AB : addrs B = addrs B1 ++ cur :: addrs B2) by (rewrite EB, addrs_app; cbn; rewrite Ec; reflexivity).
    assert (AB' : addrs B' = addrs B1 ++ cur :: new :: addrs B2) by (rewrite EB', addrs_app; reflexivity).
    rewrite <- EB in NDA, NZA. rewrite AB in NDA, NZA.
    assert (NN : ~ In new (addrs B1 ++ cur :: addrs B2)).
    { rewrite AB' in NDA'. intro K. apply (NoDup_remove_2 (addrs B1 ++ [cur]) (addrs B2) new).
      - rewrite <- app_assoc. exact NDA'.
      - rewrite <- app_assoc. exact K. }
    destruct (HC_ptr _ _ _ _ _ cur H) as (Q1 & Q2 & _ & Q4). pose proof NN as NNl. rewrite <- AB in NN.
    remember (prev_of F cur) as pf eqn:Epf. remember (next_of F cur) as nf eqn:Enf. remember (next_of (addrs B) cur) as nx eqn:Enx.
    assert (Q1' : pf = 0 \/ In pf (addrs B')) by (destruct Q1; auto). assert (Q2' : nf = 0 \/ In nf (addrs B')) by (destruct Q2; auto). assert (Q4' : nx = 0 \/ In nx (addrs B')) by (destruct Q4; auto).
    assert (Zn : new <> 0) by (intro K; apply NZ; rewrite <- K; exact IN). assert (Zc : cur <> 0) by (intro K; apply NZ; rewrite <- K; exact IA).
    assert (NC : cur <> new) by lia. assert (NC' : new <> cur) by lia.
    assert (Npf : pf <> new) by (intro K; destruct Q1 as [Q1|Q1]; [congruence|apply NN; congruence]).
    assert (Nnf : nf <> new) by (intro K; destruct Q2 as [Q2|Q2]; [congruence|apply NN; congruence]).
    assert (Nnx : nx <> new) by (intro K; destruct Q4 as [Q4|Q4]; [congruence|apply NN; congruence]).
    pose proof (c_nd _ _ _ _ _ H) as ND. pose proof (HC_fnz _ _ _ _ _ H) as NZF. rewrite EF in ND, NZF.
    assert (NF : ~ In new (F1 ++ cur :: F2)) by (rewrite <- EF; intro K; apply NN; exact (HC_fin _ _ _ _ _ _ H K)).
    destruct (hdr_full _ _ _ _ _ H b0 I (HC_nz _ _ _ _ _ _ H I)) as (E0 & E1 & E2 & E3 & E4 & E5 & E6 & E7). rewrite Ec in E0, E1, E2, E3, E4, E5, E6, E7.
    rewrite <- Enx in E4. rewrite <- Epf in E5. rewrite <- Enf in E6.
    assert (ne1 : (cur =? new) = false) by (apply N.eqb_neq; exact NC). assert (ne2 : (new =? cur) = false) by (apply N.eqb_neq; exact NC').
    assert (ne3 : (new =? pf) = false) by (apply N.eqb_neq; congruence). assert (ne4 : (new =? nf) = false) by (apply N.eqb_neq; congruence). assert (ne5 : (new =? nx) = false) by (apply N.eqb_neq; congruence).
    pose proof (rep_st _ _ _ _ _ SIZEf (ld m cur SIZEf - len - HDR) SE (rep0 (addrs B') m) IN eq_refl) as R. rewrite <- D1 in R.
    apply (rep_st _ _ _ _ new ALLOCf 0 SE) in R; [|exact IN|reflexivity]. rewrite <- D2 in R.
    apply (rep_st _ _ _ _ new PREVf cur SE) in R; [|exact IN|reflexivity]. rewrite <- D3 in R.
    assert (L3 : ld m3 cur NEXTf = nx) by (pose proof (proj1 R cur NEXTf IA eq_refl) as X; sv X; rewrite E4 in X; exact X).
    rewrite L3 in D4. apply (rep_st _ _ _ _ new NEXTf nx SE) in R; [|exact IN|reflexivity]. rewrite <- D4 in R.
    apply (rep_st _ _ _ _ new MAGIC1f MAGIC1 SE) in R; [|exact IN|reflexivity].
    apply (rep_st _ _ _ _ new MAGIC2f MAGIC2 SE) in R; [|exact IN|reflexivity]. rewrite <- D5 in R.
    assert (L5 : ld m5 new NEXTf = nx) by (pose proof (proj1 R new NEXTf IN eq_refl) as X; sv X; rewrite N.eqb_refl in X; exact X).
    rewrite L5 in D6. apply (rep_if _ _ _ _ nx PREVf new SE NZ) in R; [|exact Q4'|reflexivity]. rewrite <- D6 in R.
    assert (L6 : ld m6 cur PFREEf = pf) by (pose proof (proj1 R cur PFREEf IA eq_refl) as X; sv X; rewrite E5 in X; exact X).
    rewrite L6 in D7. apply (rep_st _ _ _ _ new PFREEf pf SE) in R; [|exact IN|reflexivity]. rewrite <- D7 in R.
    assert (L7 : ld m7 cur NFREEf = nf) by (pose proof (proj1 R cur NFREEf IA eq_refl) as X; sv X; rewrite E6 in X; exact X).
    rewrite L7 in D8. apply (rep_st _ _ _ _ new NFREEf nf SE) in R; [|exact IN|reflexivity]. rewrite <- D8 in R.
    assert (L8 : ld m8 new PFREEf = pf) by (pose proof (proj1 R new PFREEf IN eq_refl) as X; sv X; rewrite N.eqb_refl in X; exact X).
    rewrite L8 in D9, X4. apply (rep_if _ _ _ _ pf NFREEf new SE NZ) in R; [|exact Q1'|reflexivity]. rewrite <- D9 in R.
    assert (L9 : ld m9 new NFREEf = nf) by (pose proof (proj1 R new NFREEf IN eq_refl) as X; sv X; rewrite ne3, N.eqb_refl in X; exact X).
    rewrite L9 in D10. apply (rep_if _ _ _ _ nf PFREEf new SE NZ) in R; [|exact Q2'|reflexivity]. rewrite <- D10 in R.
    apply (rep_st _ _ _ _ cur ALLOCf 1 SE) in R; [|exact IA|reflexivity]. apply (rep_st _ _ _ _ cur SIZEf len SE) in R; [|exact IA|reflexivity].
    apply (rep_st _ _ _ _ cur NEXTf new SE) in R; [|exact IA|reflexivity]. rewrite <- D11 in R.
    apply (rep_st _ _ _ _ cur PFREEf 0 SE) in R; [|exact IA|reflexivity]. apply (rep_st _ _ _ _ cur NFREEf 0 SE) in R; [|exact IA|reflexivity]. rewrite <- D12 in R.
    clear D1 D2 D3 D4 D5 D6 D7 D8 D9 D10 D11 D12 L3 L5 L6 L7 L8 L9. set (V' := vput _ _ _ _) in R. destruct R as [R RF]. split; [|exact RF].
    constructor; rewrite ?X1, ?X2, ?X3.
    - exact (c_first _ _ _ _ _ H).
    - exact PO.
    - exact (c_end _ _ _ _ _ H).
    - rewrite EB'. destruct B1; discriminate.
    - exact T'.
    - rewrite X4, (rep_hd F1 F2 cur ND NZF), <- EF, <- Epf. destruct (pf =? 0); [reflexivity|exact (c_free _ _ _ _ _ H)].
    - apply NoDup_Add with (a := new) (l := F1 ++ F2); [apply Add_app|]. split; [exact (NoDup_remove_1 _ _ _ ND)|]. intro K. apply NF. apply mid_cases. auto.
    - intro a. pose proof (c_in _ _ _ _ _ H a) as CI. split.
      + intro Ia. destruct (N.eq_dec a new) as [->|Nan].
        { split; [exact Zn|]. exists (mkBlk new (bs b0 - len - 64) false). split; [|auto]. rewrite EB', in_app_iff. cbn. auto. }
        assert (Ia' : In a (F1 ++ F2)) by (apply mid_cases in Ia; destruct Ia; [contradiction|assumption]).
        assert (Na : a <> cur) by (intros ->; exact (NoDup_remove_2 _ _ _ ND Ia')). destruct (proj1 CI) as (Za & b & Ib & Eb & Fb).
        { rewrite EF. apply in_rem; assumption. }
        split; [exact Za|]. exists b. split; [|auto]. rewrite EB'. rewrite EB in Ib. apply mid_cases2. apply mid_cases in Ib. destruct Ib as [->|Ib]; [congruence|auto].
      + intros (Za & b & Ib & Eb & Fb). rewrite EB' in Ib. destruct (N.eq_dec a new) as [->|Nan]; [apply mid_cases; auto|].
        assert (Ib' : In b (B1 ++ B2)) by (apply mid_cases2 in Ib; destruct Ib as [->|[->|Ib]]; [discriminate Fb|cbn in Eb; congruence|exact Ib]).
        destruct (other_ne _ _ _ _ _ _ T Ib') as [Ib2 Nb]. assert (K : In a (F1 ++ F2)).
        { apply (in_rem F1 F2 cur); [congruence|]. rewrite <- EF. apply CI. split; [exact Za|]. exists b. rewrite EB. auto. }
        apply mid_cases. auto.
    - intros b Ib.
      assert (Q : forall f, f < 8 -> ld m' (ba b) f = V' (ba b) f) by (intros f Hf; apply R; [apply in_addr, Ib|exact Hf]).
      apply hdr_lim_of. unfold hdr_ok. rewrite !Q by reflexivity. clear Q.
      assert (Ib' : b = mkBlk cur len true \/ b = mkBlk new (bs b0 - len - 64) false \/ In b (B1 ++ B2)) by (rewrite EB' in Ib; apply mid_cases2 in Ib; exact Ib).
      assert (NP : pf <> cur) by (rewrite Epf, EF; apply prev_ne; assumption). assert (NX : nf <> cur) by (rewrite Enf, EF; apply next_ne; assumption).
      assert (NB : nx <> cur) by (rewrite Enx, AB; apply next_ne; assumption).
      assert (NCF : ~ In cur (F1 ++ new :: F2)).
      { intro K. apply (NoDup_remove_2 _ _ _ ND). apply mid_cases in K. destruct K; [contradiction|assumption]. }
      rewrite AB'. destruct Ib' as [->|[->|Ib']]; unfold V'; cbn [ba bs bal].
      + fs. rewrite !N.eqb_refl, !ne1. cbn [andb].
        rewrite ins_next_c by assumption. rewrite (ins_prev _ _ _ NDA NZA new NNl Zn) by (apply mid_cases; auto). rewrite <- AB, <- Enx.
        rewrite (prev_notin (F1 ++ new :: F2)), (next_notin (F1 ++ new :: F2)) by exact NCF.
        rewrite (proj2 (N.eqb_neq cur nx)) by congruence. rewrite <- E3. auto 10.
      + fs. rewrite !N.eqb_refl, !ne2, !ne3, !ne4, !ne5. cbn [andb].
        rewrite ins_next_new, ins_prev_new by assumption. rewrite (rep_next_new F1 F2 cur), (rep_prev_new F1 F2 cur) by assumption. rewrite <- AB, <- EF, <- Enx, <- Epf, <- Enf. unfold SIZEf, HDR in *. rewrite E1. auto 10.
      + destruct (other_ne _ _ _ _ _ _ T Ib') as [Ib2 Nb]. rewrite <- EB in Ib2. rewrite Ec in Nb. pose proof (in_addr _ _ Ib2) as IAb.
        assert (Nbn : ba b <> new) by (intro K; apply NN; rewrite <- K; exact IAb).
        assert (Zb : ba b <> 0) by (intro K; apply NZ; rewrite <- K; apply in_addr, Ib).
        destruct (hdr_full _ _ _ _ _ H b Ib2 (HC_nz _ _ _ _ _ _ H Ib2)) as (G0 & G1 & G2 & G3 & G4 & G5 & G6 & G7). fs.
        rewrite (ins_prev _ _ _ NDA NZA new NNl Zn) by (rewrite <- AB; exact IAb). rewrite (ins_next _ _ _ NDA new NNl Zn) by (try rewrite <- AB; assumption).
        rewrite (rep_prev' F1 F2 cur ND NZF new NF Zn (ba b) Zb Nb Nbn), (rep_next' F1 F2 cur ND NZF new NF Zn (ba b) Zb Nb Nbn), <- AB, <- EF, <- Epf, <- Enf, <- Enx.
        rewrite <- G3, <- G4, <- G5, <- G6. rewrite !(proj2 (N.eqb_neq _ _) Nb), !(proj2 (N.eqb_neq _ _) Nbn). cbn [andb]. auto 10.
    - intros b Ib. assert (Ib' : b = mkBlk cur len true \/ b = mkBlk new (bs b0 - len - 64) false \/ In b (B1 ++ B2)) by (rewrite EB' in Ib; apply mid_cases2 in Ib; exact Ib).
      pose proof (c_mod _ _ _ _ _ H b0 I) as M0. rewrite Ec in M0.
      destruct Ib' as [->|[->|Ib']]; cbn [ba]; [exact M0|lia|]. apply (c_mod _ _ _ _ _ H). rewrite EB. apply mid_cases. auto.
  Qed.
End Split.
