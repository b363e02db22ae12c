(** Proofs about SIMD contexts. *)
From Coq Require Import NArith List Bool Lia.
From Verif Require Import Simd SpecSimd.
Import ListNotations.
Local Open Scope N_scope.

(** ** Banks of registers in memory *)

Lemma st_bank_out : forall n m base len f j, j < base \/ base + N.of_nat n * len <= j -> st_bank n m base len f j = m j.
Proof.
  induction n as [|n IH]; intros m base len f j H; [reflexivity|]. cbn [st_bank]. unfold st1.
  rewrite IH by nia.
  destruct ((base + N.of_nat n * len <=? j) && (j <? base + N.of_nat n * len + len)) eqn:E; [exfalso|reflexivity].
  apply andb_prop in E. destruct E as [E1 E2]. apply N.leb_le in E1. apply N.ltb_lt in E2. nia.
Qed.
Lemma st_bank_in : forall n m base len f i k, i < N.of_nat n -> k < len -> st_bank n m base len f (base + i * len + k) = f i k.
Proof.
  induction n as [|n IH]; intros m base len f i k Hi Hk; [lia|]. cbn [st_bank]. unfold st1.
  destruct (N.eq_dec i (N.of_nat n)) as [->|Ne].
  - replace ((base + N.of_nat n * len <=? base + N.of_nat n * len + k) && (base + N.of_nat n * len + k <? base + N.of_nat n * len + len)) with true.
    + f_equal. lia.
    + symmetry. apply andb_true_intro. split; [apply N.leb_le|apply N.ltb_lt]; lia.
  - destruct ((base + N.of_nat n * len <=? base + i * len + k) && (base + i * len + k <? base + N.of_nat n * len + len)) eqn:E.
    + exfalso. apply andb_prop in E. destruct E as [E1 E2]. apply N.leb_le in E1.
      assert (i + 1 <= N.of_nat n) by lia. nia.
    + apply IH; lia.
Qed.
Lemma ld_bank_in : forall n m base len f i k, i < N.of_nat n -> k < len -> ld_bank n m base len f i k = m (base + i * len + k).
Proof.
  induction n as [|n IH]; intros m base len f i k Hi Hk; [lia|]. cbn [ld_bank]. unfold put1, ld1.
  destruct (N.eqb_spec i (N.of_nat n)) as [->|Ne].
  - rewrite (proj2 (N.ltb_lt _ _) Hk). f_equal.
  - apply IH; lia.
Qed.
Lemma ld_bank_keep : forall n m base len f i k, len <= k -> ld_bank n m base len f i k = f i k.
Proof.
  induction n as [|n IH]; intros m base len f i k Hk; [reflexivity|]. cbn [ld_bank]. unfold put1, ld1.
  destruct (N.eqb_spec i (N.of_nat n)) as [->|Ne].
  - rewrite (proj2 (N.ltb_ge _ _) Hk). apply IH; lia.
  - apply IH; lia.
Qed.
Lemma ld_bank_out : forall n m base len f i k, N.of_nat n <= i -> ld_bank n m base len f i k = f i k.
Proof.
  induction n as [|n IH]; intros m base len f i k Hk; [reflexivity|]. cbn [ld_bank]. unfold put1.
  destruct (N.eqb_spec i (N.of_nat n)) as [->|Ne]; [lia|]. apply IH; lia.
Qed.

Global Opaque st_bank ld_bank.

(** What the memory of a context holds after a save at vector length [q]. *)
Definition sve_mem (q : N) (ffr : bool) (r : regs) (m : N -> N) : Prop :=
  (forall i k, i < 32 -> k < 16 * (q + 1) -> m (i * (16 * (q + 1)) + k) = v_z r i k) /\
  (forall i k, i < 16 -> k < 2 * (q + 1) -> m (OFFSET_P + i * (2 * (q + 1)) + k) = v_p r i k) /\
  (ffr = true -> forall k, k < 2 * (q + 1) -> m (OFFSET_FFR + k) = v_ffr r k).

Lemma sve_save_mem : forall h ffr r m, cur_vq h r <= 15 -> sve_mem (cur_vq h r) ffr r (fst (sve_save h ffr r m)).
Proof.
  intros h ffr r m L. unfold sve_save, vl, pl. set (q := cur_vq h r) in *. clearbody q. unfold sve_mem, OFFSET_FFR, OFFSET_P.
  assert (Z : forall i k, i < 32 -> k < 16 * (q + 1) ->
    st_bank 16 (st_bank 32 m 0 (16 * (q + 1)) (v_z r)) (16 * (16 * 32)) (2 * (q + 1)) (v_p r) (i * (16 * (q + 1)) + k) = v_z r i k).
  { intros i k Hi Hk. rewrite st_bank_out by (left; nia). rewrite <- (st_bank_in 32 m 0 (16 * (q + 1)) (v_z r) i k) by lia. f_equal. }
  assert (P : forall i k, i < 16 -> k < 2 * (q + 1) ->
    st_bank 16 (st_bank 32 m 0 (16 * (q + 1)) (v_z r)) (16 * (16 * 32)) (2 * (q + 1)) (v_p r) (16 * (16 * 32) + i * (2 * (q + 1)) + k) = v_p r i k).
  { intros i k Hi Hk. apply st_bank_in; [lia|lia]. }
  destruct ffr; cbn [fst].
  - split; [|split].
    + intros i k Hi Hk. unfold st1. rewrite Z by assumption.
      rewrite (proj2 (N.leb_gt _ _)); [reflexivity|].
      assert (i * (16 * (q + 1)) <= 31 * (16 * (q + 1))) by (apply N.mul_le_mono_r; lia). clear Z P. set (t := i * _) in *. clearbody t. lia.
    + intros i k Hi Hk. unfold st1. rewrite P by assumption. rewrite (proj2 (N.leb_gt _ _)); [reflexivity|].
      assert (i * (2 * (q + 1)) <= 15 * (2 * (q + 1))) by (apply N.mul_le_mono_r; lia). clear Z P. set (t := i * _) in *. clearbody t. lia.
    + intros _ k Hk. unfold st1.
      rewrite (proj2 (N.leb_le _ _)), (proj2 (N.ltb_lt _ _)) by lia. cbn [andb v_p set_p]. unfold put1. rewrite N.eqb_refl. f_equal. lia.
  - split; [exact Z|split; [exact P|discriminate]].
Qed.

Lemma sve_restore_get : forall h ffr r m q v, cur_vq h r = q -> sve_mem q ffr v m -> let r' := sve_restore h ffr m r in
  (forall i k, i < 32 -> k < 16 * (q + 1) -> v_z r' i k = v_z v i k) /\
  (forall i k, i < 16 -> k < 2 * (q + 1) -> v_p r' i k = v_p v i k) /\
  (ffr = true -> forall k, k < 2 * (q + 1) -> v_ffr r' k = v_ffr v k) /\
  v_fpsr r' = v_fpsr r /\ v_fpcr r' = v_fpcr r /\ v_zcr1 r' = v_zcr1 r /\ v_zcr2 r' = v_zcr2 r /\ v_svcr r' = v_svcr r /\ v_smcr r' = v_smcr r /\
  v_za r' = v_za r /\ v_cptr r' = v_cptr r.
Proof.
  intros h ffr r m q v <- (Z & P & F). cbv zeta.
  assert (VZ : v_z (sve_restore h ffr m r) = ld_bank 32 m 0 (vl h r) (v_z r)) by (destruct ffr; reflexivity).
  split; [intros i k Hi Hk; rewrite VZ|]; clear VZ; unfold sve_restore, vl, pl; set (q := cur_vq h r) in *; clearbody q; [|split; [|split]].
  - rewrite ld_bank_in by lia. rewrite N.add_0_l. apply Z; assumption.
  - intros i k Hi Hk. cbn [v_p set_p]. rewrite ld_bank_in by lia. apply P; assumption.
  - intros -> k Hk. cbn [v_ffr v_p set_p set_ffr set_z]. unfold put1. rewrite N.eqb_refl. unfold ld1. rewrite (proj2 (N.ltb_lt _ _) Hk). apply F; auto.
  - destruct ffr; repeat split; reflexivity.
Qed.

Lemma fpu_save_mem : forall r m i k, i < 32 -> k < 16 -> fpu_save r m (i * 16 + k) = v_z r i k.
Proof. intros r m i k Hi Hk. unfold fpu_save. rewrite <- (st_bank_in 32 m 0 16 (v_z r) i k) by lia. f_equal. Qed.
Lemma fpu_restore_get : forall h m r v, (forall i k, i < 32 -> k < 16 -> m (i * 16 + k) = v_z v i k) ->
  (forall i k, i < 32 -> k < 16 -> v_z (fpu_restore h m r) i k = v_z v i k) /\
  (forall i k, i < 32 -> 16 <= k -> k < vl h r -> v_z (fpu_restore h m r) i k = 0).
Proof.
  intros h m r v H. split; intros i k Hi Hk; unfold fpu_restore; cbn [v_z set_z].
  - rewrite ld_bank_in by lia. rewrite N.add_0_l. apply H; assumption.
  - intros L. rewrite ld_bank_keep by assumption.
    rewrite (proj2 (N.leb_le _ _) Hk), (proj2 (N.ltb_lt _ _) L), (proj2 (N.ltb_lt _ _) Hi). reflexivity.
Qed.

(** ** Saving and restoring one context *)

(** The context may be used at EL2 under its own trap register. *)
Definition usable (h : simd_hw) (c : sctx) : Prop :=
  fpen (x_cptr c) = true /\ (x_sve c = true -> zen (x_cptr c) = true) /\ (x_sme c = true -> smen (x_cptr c) = true) /\
  (x_sme c = true -> hw_sme h = true).
(** The vector length the context is saved with. *)
Definition ctx_vq (h : simd_hw) (c : sctx) (str : bool) (smcr : N) : N := if str then hw_svq h smcr else hw_vq h (N.land (x_zcr2 c) 15).

(** [c] holds the registers [r]. *)
Definition holds (h : simd_hw) (c : sctx) (r : regs) : Prop :=
  x_fpsr c = v_fpsr r /\ x_fpcr c = v_fpcr r /\ (x_sve c = true -> x_zcr1 c = v_zcr1 r) /\ (x_sme c = true -> x_svcr c = v_svcr r) /\
  if mode_normal c r || mode_streaming c r
  then sve_mem (ctx_vq h c (mode_streaming c r) (v_smcr r)) (if mode_streaming c r then fa64 r else true) r (x_mem c)
  else forall i k, i < 32 -> k < 16 -> x_mem c (i * 16 + k) = v_z r i k.

Definition same_ctx (c c' : sctx) : Prop :=
  x_owner c' = x_owner c /\ x_sve c' = x_sve c /\ x_sme c' = x_sme c /\ x_init c' = x_init c /\ x_hint c' = x_hint c /\
  x_cptr c' = x_cptr c /\ x_zcr2 c' = x_zcr2 c /\ x_ns_zcr2 c' = x_ns_zcr2 c.

Lemma must_true : must true = SOk tt. Proof. reflexivity. Qed.

Lemma restore_el2_ok : forall c v r, (x_sve c = true -> zen (v_cptr r) = true) ->
  exists r', restore_el2_config c v r = SOk r' /\ r' = if x_sve c then set_zcr2 v r else r.
Proof.
  intros c v r Z. unfold restore_el2_config. destruct (x_sve c).
  - rewrite (Z eq_refl). cbn [must sbind]. eexists. split; [reflexivity|].
    destruct (N.eqb_spec (v_zcr2 r) v) as [<-|]; destruct r; reflexivity.
  - eauto.
Qed.

Lemma save_ok : forall h c r, hw_ok h -> usable h c -> v_cptr r = x_cptr c -> (x_sme c = false -> streaming h r = false) ->
  exists c' r', save_simd_context h c r = SOk (c', r') /\ same_ctx c c' /\ holds h c' r /\ x_saved c' = x_saved c /\
    v_zcr1 r' = v_zcr1 r /\ v_zcr2 r' = (if x_sve c then x_zcr2 c else v_zcr2 r) /\
    v_svcr r' = (if mode_streaming c r then N.ldiff (v_svcr r) 1 else v_svcr r) /\
    v_smcr r' = v_smcr r /\ v_za r' = v_za r /\ v_cptr r' = v_cptr r /\ (x_sme c = false -> x_svcr c' = x_svcr c).
Proof.
  intros h c r (HV & HI & HS) (UF & UZ & UM & UH) CP NS. unfold save_simd_context.
  destruct (restore_el2_ok c (x_zcr2 c) r) as (r1 & E1 & R1); [rewrite CP; exact UZ|]. rewrite E1. cbn [sbind].
  assert (C1 : v_cptr r1 = x_cptr c) by (rewrite R1; destruct (x_sve c); exact CP).
  assert (S1 : v_svcr r1 = v_svcr r) by (rewrite R1; destruct (x_sve c); reflexivity).
  assert (M1 : v_smcr r1 = v_smcr r) by (rewrite R1; destruct (x_sve c); reflexivity).
  assert (Z1 : v_z r1 = v_z r /\ v_p r1 = v_p r /\ v_ffr r1 = v_ffr r /\ v_fpsr r1 = v_fpsr r /\ v_fpcr r1 = v_fpcr r /\ v_zcr1 r1 = v_zcr1 r /\ v_za r1 = v_za r)
    by (rewrite R1; destruct (x_sve c); repeat split).
  assert (Z2 : v_zcr2 r1 = if x_sve c then x_zcr2 c else v_zcr2 r) by (rewrite R1; destruct (x_sve c); reflexivity).
  clear E1 R1. destruct Z1 as (ZZ & ZP & ZF & ZS & ZC & Z11 & ZA).
  rewrite C1.
  assert (E2 : (if x_sme c then let! _ := must (smen (x_cptr c)) in SOk (set_xsvcr (v_svcr r1) c) else SOk c) =
    SOk (if x_sme c then set_xsvcr (v_svcr r1) c else c)).
  { destruct (x_sme c) eqn:X; [rewrite (UM eq_refl); reflexivity|reflexivity]. }
  rewrite E2. cbn [sbind]. clear E2. set (c1 := if x_sme c then set_xsvcr (v_svcr r1) c else c).
  assert (CC : same_ctx c c1 /\ x_saved c1 = x_saved c) by (unfold c1, same_ctx; destruct (x_sme c) eqn:X; cbn; repeat split; auto).
  assert (CS : (x_sme c = true -> x_svcr c1 = v_svcr r) /\ (x_sme c = false -> x_svcr c1 = x_svcr c))
    by (unfold c1; destruct (x_sme c); cbn; split; congruence).
  clearbody c1. destruct CC as (SC & SV). pose proof SC as (SC1 & SC2 & SC3 & SC4 & SC5 & SC6 & SC7 & SC8).
  assert (MS : mode_streaming c1 r1 = mode_streaming c r) by (unfold mode_streaming, sm; rewrite SC3, S1; reflexivity).
  assert (MN : mode_normal c1 r1 = mode_normal c r) by (unfold mode_normal; rewrite MS, SC2, SC5; reflexivity).
  assert (FA : fa64 r1 = fa64 r) by (unfold fa64; rewrite M1; reflexivity).
  assert (ST : streaming h r1 = mode_streaming c r).
  { unfold streaming, mode_streaming in *. unfold sm in *. rewrite S1. destruct (x_sme c); [rewrite (UH eq_refl); reflexivity|].
    rewrite NS by reflexivity. reflexivity. }
  rewrite MS, MN, FA.
  assert (VQ : mode_normal c r || mode_streaming c r = true -> cur_vq h r1 = ctx_vq h c (mode_streaming c r) (v_smcr r)).
  { intros D. unfold cur_vq, ctx_vq. rewrite ST, M1. destruct (mode_streaming c r) eqn:Q; [reflexivity|]. rewrite Z2.
    destruct (x_sve c) eqn:V; [reflexivity|]. unfold mode_normal in D. rewrite V in D. discriminate D. }
  set (r1' := if mode_normal c r || mode_streaming c r then snd (sve_save h (if mode_streaming c r then fa64 r else true) r1 (x_mem c1)) else r1).
  set (m' := if mode_normal c r || mode_streaming c r then fst (sve_save h (if mode_streaming c r then fa64 r else true) r1 (x_mem c1)) else fpu_save r1 (x_mem c1)).
  assert (E3 : (if mode_normal c r || mode_streaming c r then
       let! _ := must (sve_ok h r1) in
       let (m, r') := sve_save h (if mode_streaming c r then fa64 r else true) r1 (x_mem c1) in
       SOk (set_mem m c1, r')
     else
       let! _ := must (fpen (x_cptr c)) in SOk (set_mem (fpu_save r1 (x_mem c1)) c1, r1)) = SOk (set_mem m' c1, r1')).
  { unfold m', r1'. destruct (mode_normal c r || mode_streaming c r) eqn:D.
    - assert (SO : sve_ok h r1 = true).
      { unfold sve_ok. rewrite C1, UF, ST. cbn [andb]. destruct (mode_streaming c r) eqn:Q.
        - apply UM. unfold mode_streaming in Q. apply andb_prop in Q. tauto.
        - apply UZ. unfold mode_normal in D. destruct (x_sve c); [reflexivity|discriminate D]. }
      rewrite SO. cbn [must sbind]. destruct (sve_save h _ r1 (x_mem c1)) as [m r']. reflexivity.
    - rewrite UF. reflexivity. }
  rewrite E3. cbn [sbind]. clear E3.
  assert (RP : v_z r1' = v_z r /\ v_ffr r1' = v_ffr r /\ v_fpsr r1' = v_fpsr r /\ v_fpcr r1' = v_fpcr r /\ v_zcr1 r1' = v_zcr1 r /\
    v_zcr2 r1' = v_zcr2 r1 /\ v_svcr r1' = v_svcr r /\ v_smcr r1' = v_smcr r /\ v_za r1' = v_za r /\ v_cptr r1' = x_cptr c).
  { unfold r1', sve_save. destruct (mode_normal c r || mode_streaming c r); [destruct (if mode_streaming c r then fa64 r else true)|]; cbn; repeat split; assumption. }
  destruct RP as (RP1 & RP2 & RP3 & RP4 & RP5 & RP6 & RP7 & RP8 & RP9 & RP10).
  assert (MEM : if mode_normal c r || mode_streaming c r
    then sve_mem (ctx_vq h c (mode_streaming c r) (v_smcr r)) (if mode_streaming c r then fa64 r else true) r m'
    else forall i k, i < 32 -> k < 16 -> m' (i * 16 + k) = v_z r i k).
  { unfold m'. destruct (mode_normal c r || mode_streaming c r) eqn:D.
    - assert (L : cur_vq h r1 <= 15).
      { rewrite (VQ eq_refl). unfold ctx_vq. destruct (mode_streaming c r); [apply HS|]. etransitivity; [apply HV|].
        pose proof (N.land_ones (x_zcr2 c) 4) as LO. change (N.ones 4) with 15 in LO. rewrite LO. pose proof (N.mod_lt (x_zcr2 c) (2 ^ 4)). change (2 ^ 4) with 16 in *. lia. }
      pose proof (sve_save_mem h (if mode_streaming c r then fa64 r else true) r1 (x_mem c1) L) as SM.
      rewrite (VQ eq_refl) in SM. unfold sve_mem in *. rewrite ZZ, ZP, ZF in SM. exact SM.
    - intros i k Hi Hk. rewrite fpu_save_mem by assumption. rewrite ZZ. reflexivity. }
  clearbody m' r1'.
  cbn [x_sve x_zcr1 x_svcr x_sme set_mem set_ctl]. rewrite RP10, SC2, UF.
  replace (negb (x_sve c) || zen (x_cptr c)) with true by (destruct (x_sve c); [rewrite (UZ eq_refl)|]; reflexivity).
  cbn [must sbind].
  set (c3 := set_ctl (v_fpsr r1') (v_fpcr r1') (if x_sve c then v_zcr1 r1' else x_zcr1 c1) (set_mem m' c1)).
  assert (MS3 : mode_streaming c3 r1' = mode_streaming c r) by (unfold mode_streaming, c3, sm; cbn; rewrite SC3, RP7; reflexivity).
  rewrite MS3. eexists. eexists. split; [reflexivity|].
  split; [unfold same_ctx, c3; cbn; repeat split; assumption|].
  split.
  { assert (MS3' : mode_streaming c3 r = mode_streaming c r) by (unfold mode_streaming, c3, sm; cbn; rewrite SC3; reflexivity).
    assert (MN3' : mode_normal c3 r = mode_normal c r) by (unfold mode_normal; rewrite MS3'; unfold c3; cbn; rewrite SC2, SC5; reflexivity).
    unfold holds. rewrite MS3', MN3'. unfold c3. cbn [x_fpsr x_fpcr x_sve x_sme x_zcr1 x_svcr x_mem set_ctl set_mem].
    split; [exact RP3|]. split; [exact RP4|]. split; [rewrite SC2; intros ->; exact RP5|]. split; [rewrite SC3; apply CS|].
    unfold ctx_vq in *. cbn [x_zcr2 set_ctl set_mem]. rewrite SC7. exact MEM. }
  split; [exact SV|].
  assert (XS : mode_streaming c r = true -> x_svcr c3 = v_svcr r).
  { intros Q. unfold c3. cbn. apply CS. unfold mode_streaming in Q. apply andb_prop in Q. tauto. }
  split; [destruct (mode_streaming c r); [unfold write_svcr; destruct (Bool.eqb _ _)|]; cbn; assumption|].
  split; [rewrite <- Z2, <- RP6; destruct (mode_streaming c r); [unfold write_svcr; destruct (Bool.eqb _ _)|]; reflexivity|].
  split.
  { destruct (mode_streaming c r); [|exact RP7]. rewrite <- XS by reflexivity. unfold write_svcr. destruct (Bool.eqb _ _); reflexivity. }
  split; [destruct (mode_streaming c r); [unfold write_svcr; destruct (Bool.eqb _ _)|]; cbn; assumption|].
  split; [destruct (mode_streaming c r); [unfold write_svcr; destruct (Bool.eqb _ _)|]; cbn; assumption|].
  split; [rewrite CP; destruct (mode_streaming c r); [unfold write_svcr; destruct (Bool.eqb _ _)|]; cbn; assumption|].
  unfold c3. cbn. apply CS.
Qed.

Lemma restore_ok : forall h c r v, hw_ok h -> usable h c -> v_cptr r = x_cptr c -> (x_sme c = false -> streaming h r = false) ->
  (x_sme c = true -> v_smcr r = v_smcr v) -> (x_sme c = true \/ mode_streaming c v = false) -> holds h c v ->
  exists r', restore_simd_context h c r = SOk r' /\
    v_fpsr r' = v_fpsr v /\ v_fpcr r' = v_fpcr v /\ v_zcr1 r' = (if x_sve c then v_zcr1 v else v_zcr1 r) /\
    v_zcr2 r' = (if x_sve c then x_zcr2 c else v_zcr2 r) /\ v_svcr r' = (if x_sme c then v_svcr v else v_svcr r) /\
    v_smcr r' = v_smcr r /\ v_za r' = v_za r /\ v_cptr r' = v_cptr r /\
    (forall i k, i < 32 -> k < 16 -> v_z r' i k = v_z v i k) /\
    if mode_normal c v || mode_streaming c v then
      let q := ctx_vq h c (mode_streaming c v) (v_smcr v) in
      (forall i k, i < 32 -> k < 16 * (q + 1) -> v_z r' i k = v_z v i k) /\
      (forall i k, i < 16 -> k < 2 * (q + 1) -> v_p r' i k = v_p v i k) /\
      ((if mode_streaming c v then fa64 v else true) = true -> forall k, k < 2 * (q + 1) -> v_ffr r' k = v_ffr v k)
    else x_sve c = true ->
      let q := ctx_vq h c false 0 in
      (forall i k, i < 32 -> 16 <= k -> k < 16 * (q + 1) -> v_z r' i k = 0) /\
      (forall i k, i < 16 -> v_p r' i k = 0) /\ (forall k, v_ffr r' k = 0).
Proof.
  intros h c r v (HV & HI & HS) (UF & UZ & UM & UH) CP NS SMCR NST (H1 & H2 & H3 & H4 & H5). unfold restore_simd_context.
  destruct (restore_el2_ok c (x_zcr2 c) r) as (r1 & E1 & R1); [rewrite CP; exact UZ|]. rewrite E1. cbn [sbind].
  assert (C1 : v_cptr r1 = x_cptr c) by (rewrite R1; destruct (x_sve c); exact CP).
  assert (F1 : v_svcr r1 = v_svcr r /\ v_smcr r1 = v_smcr r /\ v_zcr1 r1 = v_zcr1 r /\ v_za r1 = v_za r /\ v_zcr2 r1 = if x_sve c then x_zcr2 c else v_zcr2 r)
    by (rewrite R1; destruct (x_sve c); repeat split).
  clear E1 R1. destruct F1 as (S1 & M1 & Z11 & ZA & Z2).
  rewrite C1.
  assert (E2 : (if x_sme c then let! _ := must (smen (x_cptr c)) in SOk (write_svcr (x_svcr c) r1) else SOk r1) =
    SOk (if x_sme c then write_svcr (x_svcr c) r1 else r1)).
  { destruct (x_sme c) eqn:X; [rewrite (UM eq_refl); reflexivity|reflexivity]. }
  rewrite E2. cbn [sbind]. clear E2. set (r2 := if x_sme c then write_svcr (x_svcr c) r1 else r1).
  assert (F2 : v_smcr r2 = v_smcr r /\ v_zcr1 r2 = v_zcr1 r /\ v_za r2 = v_za r /\ v_zcr2 r2 = (if x_sve c then x_zcr2 c else v_zcr2 r) /\
    v_cptr r2 = x_cptr c /\ v_svcr r2 = if x_sme c then v_svcr v else v_svcr r).
  { unfold r2. destruct (x_sme c); [unfold write_svcr; destruct (Bool.eqb _ _); cbn; rewrite <- H4 by reflexivity|]; repeat split; assumption. }
  clearbody r2. destruct F2 as (M2 & Z12 & ZA2 & Z22 & C2 & S2).
  assert (ST : streaming h r2 = mode_streaming c v).
  { unfold streaming, mode_streaming, sm in *. rewrite S2. destruct (x_sme c); [rewrite (UH eq_refl); reflexivity|]. rewrite NS by reflexivity. reflexivity. }
  assert (MS : mode_streaming c r2 = mode_streaming c v).
  { unfold mode_streaming, sm in *. rewrite S2. destruct (x_sme c); reflexivity. }
  assert (MN : mode_normal c r2 = mode_normal c v) by (unfold mode_normal; rewrite MS; reflexivity).
  assert (FA : mode_streaming c v = true -> fa64 r2 = fa64 v).
  { intros Q. unfold fa64. rewrite M2, SMCR; [reflexivity|]. unfold mode_streaming in Q. apply andb_prop in Q. tauto. }
  rewrite MS, MN.
  replace (if mode_streaming c v then fa64 r2 else true) with (if mode_streaming c v then fa64 v else true)
    by (destruct (mode_streaming c v); [rewrite FA by reflexivity|]; reflexivity).
  assert (VQ : mode_normal c v || mode_streaming c v = true \/ x_sve c = true -> cur_vq h r2 = ctx_vq h c (mode_streaming c v) (v_smcr v)).
  { intros D. unfold cur_vq, ctx_vq. rewrite ST, M2. destruct (mode_streaming c v) eqn:Q.
    - rewrite SMCR; [reflexivity|]. unfold mode_streaming in Q. apply andb_prop in Q. tauto.
    - rewrite Z22. destruct (x_sve c) eqn:V; [reflexivity|]. unfold mode_normal in D. rewrite V in D. destruct D; discriminate. }
  destruct (mode_normal c v || mode_streaming c v) eqn:D.
  - assert (SO : sve_ok h r2 = true).
    { unfold sve_ok. rewrite C2, UF, ST. cbn [andb]. destruct (mode_streaming c v) eqn:Q.
      - apply UM. unfold mode_streaming in Q. apply andb_prop in Q. tauto.
      - apply UZ. unfold mode_normal in D. destruct (x_sve c); [reflexivity|discriminate D]. }
    rewrite SO. cbn [must sbind].
    destruct (sve_restore_get h _ r2 (x_mem c) _ v (VQ (or_introl eq_refl)) H5) as (GZ & GP & GF & G1 & G2 & G3 & G4 & G5 & G6 & G7 & G8).
    set (r3 := sve_restore _ _ _ _) in *. clearbody r3. rewrite G8, C2, UF.
    replace (negb (x_sve c) || zen (x_cptr c)) with true by (destruct (x_sve c); [rewrite (UZ eq_refl)|]; reflexivity).
    cbn [must sbind]. eexists. split; [reflexivity|].
    split; [destruct (x_sve c); exact H1|]. split; [destruct (x_sve c); exact H2|].
    split; [destruct (x_sve c); cbn; [apply H3; reflexivity|congruence]|].
    split; [rewrite <- Z22, <- G4; destruct (x_sve c); reflexivity|]. split; [rewrite <- S2, <- G5; destruct (x_sve c); reflexivity|].
    split; [rewrite <- M2, <- G6; destruct (x_sve c); reflexivity|]. split; [rewrite <- ZA2, <- G7; destruct (x_sve c); reflexivity|].
    split; [rewrite CP, <- C2, <- G8; destruct (x_sve c); reflexivity|].
    split.
    { intros i k Hi Hk. rewrite <- GZ; [destruct (x_sve c); reflexivity|assumption|]. lia. }
    cbn zeta. split; [intros; rewrite <- GZ by assumption; destruct (x_sve c); reflexivity|].
    split; [intros; rewrite <- GP by assumption; destruct (x_sve c); reflexivity|].
    intros Q k Hk. rewrite <- GF by assumption. destruct (x_sve c); reflexivity.
  - rewrite C2, UF. cbn [must sbind].
    destruct (fpu_restore_get h (x_mem c) r2 v H5) as (GQ & GU).
    assert (MSF : mode_streaming c v = false) by (destruct (mode_streaming c v); [rewrite orb_true_r in D; discriminate|reflexivity]).
    assert (PF : v_p (fpu_restore h (x_mem c) r2) = v_p r2 /\ v_cptr (fpu_restore h (x_mem c) r2) = x_cptr c /\ streaming h (fpu_restore h (x_mem c) r2) = streaming h r2)
      by (split; [reflexivity|split; [exact C2|reflexivity]]).
    destruct PF as (PF1 & PF2 & PF3). assert (PR : v_fpsr (fpu_restore h (x_mem c) r2) = v_fpsr r2 /\ v_zcr1 (fpu_restore h (x_mem c) r2) = v_zcr1 r2 /\
      v_zcr2 (fpu_restore h (x_mem c) r2) = v_zcr2 r2 /\ v_svcr (fpu_restore h (x_mem c) r2) = v_svcr r2 /\ v_smcr (fpu_restore h (x_mem c) r2) = v_smcr r2 /\
      v_za (fpu_restore h (x_mem c) r2) = v_za r2) by (repeat split; reflexivity).
    unfold vl in GU. set (r3 := fpu_restore h (x_mem c) r2) in *. clearbody r3. destruct PR as (PR1 & PR2 & PR3 & PR4 & PR5 & PR6).
    destruct (x_sve c) eqn:V.
    + assert (SO : sve_ok h r3 = true) by (unfold sve_ok; rewrite PF2, UF, PF3, ST, MSF; cbn [andb]; apply UZ; reflexivity).
      rewrite SO. cbn [must sbind]. cbn [negb orb v_cptr clear_p_ffr set_ffr set_p]. rewrite PF2, (UZ eq_refl), UF. cbn [must sbind].
      eexists. split; [reflexivity|]. cbn [v_fpsr v_fpcr v_zcr1 v_zcr2 v_svcr v_smcr v_za v_cptr v_z v_p v_ffr set_fp set_zcr1 clear_p_ffr set_ffr set_p].
      split; [exact H1|]. split; [exact H2|]. split; [apply H3; reflexivity|]. split; [congruence|]. split; [congruence|]. split; [congruence|]. split; [congruence|]. split; [congruence|].
      split; [exact GQ|]. intros _. cbn zeta. split.
      { intros i k Hi K1 K2. apply GU; [assumption|assumption|]. rewrite VQ by (right; reflexivity). rewrite MSF. exact K2. }
      split; [|reflexivity]. intros i k Hi. rewrite (proj2 (N.ltb_lt _ _) Hi). reflexivity.
    + cbn [sbind negb orb must]. rewrite PF2, UF. cbn [must sbind]. eexists. split; [reflexivity|].
      cbn [v_fpsr v_fpcr v_zcr1 v_zcr2 v_svcr v_smcr v_za v_cptr v_z v_p v_ffr set_fp].
      split; [exact H1|]. split; [exact H2|]. split; [congruence|]. split; [congruence|]. split; [congruence|]. split; [congruence|]. split; [congruence|]. split; [congruence|].
      split; [exact GQ|]. discriminate.
Qed.
