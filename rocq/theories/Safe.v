(** Proofs for Prop_Safe.v *)
From Coq Require Import NArith ZArith List Bool Lia ZifyBool ZifyN.
From Verif Require Import ArchFacts Mpidr Bits S2tte S2tteFacts State Granule Wp RecFields Measure RmiGranule RmiRtt RmiRealm Psci RmiRec Gic Esr Rsi RecRun
  Arch Mmu Machine SpecExit ExitFacts Inv InvTree MmuFacts InvStep InvStep2 InvStep3 Effects Frames CmdLib CmdGranule CmdRtt CmdFold CmdRtt2 CmdNs CmdData CmdRipas
  CmdList CmdRealm CmdRec CmdRsi CmdRsi2 CmdRun CmdRun2 CmdAll MInv MStep Spec Own SpecStep Step2 Step10 Act SpecSafe.
Import ListNotations.
Local Open Scope N_scope.

(** ** Fields of the syndrome *)

Lemma mask_bits : forall x w s, 0 < w -> N.land x (MASK w s) = bits x (s + w - 1) s * 2 ^ s.
Proof. intros x w s H. rewrite land_mask_field. unfold field, bits. replace (s + w - 1 - s + 1) with w by lia. reflexivity. Qed.

Lemma sysreg_fields : forall x, N.land x ESR_EL2_SYSREG_MASK =
  N.lor (N.lor (N.lor (N.lor (bits x 21 20 * 2 ^ 20) (bits x 16 14 * 2 ^ 14)) (bits x 13 10 * 2 ^ 10)) (bits x 4 1 * 2 ^ 1)) (bits x 19 17 * 2 ^ 17).
Proof.
  intro x. replace ESR_EL2_SYSREG_MASK with (N.lor (N.lor (N.lor (N.lor (MASK 2 20) (MASK 3 14)) (MASK 4 10)) (MASK 4 1)) (MASK 3 17)) by reflexivity.
  rewrite !N.land_lor_distr_r, !mask_bits by reflexivity. reflexivity.
Qed.
(** A full field of a masked value *)
Lemma land_bits : forall x y hi lo, lo <= hi -> N.land y (BIT_MASK hi lo) = BIT_MASK hi lo -> bits (N.land x y) hi lo = bits x hi lo.
Proof. intros x y hi lo L H. rewrite !bits_land_mask by exact L. rewrite <- N.land_assoc, H. reflexivity. Qed.
Lemma masked : forall x y v hi lo, N.land x y = v -> lo <= hi -> N.land y (BIT_MASK hi lo) = BIT_MASK hi lo -> bits x hi lo = bits v hi lo.
Proof. intros x y v hi lo E L H. rewrite <- E. symmetry. apply land_bits; assumption. Qed.

Ltac fld M := match goal with |- bits ?x ?hi ?lo = _ => rewrite (masked x _ _ hi lo M); [reflexivity|discriminate|reflexivity] end.

Lemma write_bit : forall x, sysreg_is_write x = negb (N.testbit x 0).
Proof.
  intro x. unfold sysreg_is_write. change 1 with (2 ^ 0). pose proof (has_pow2 x 0) as H. unfold has in H. rewrite <- H, negb_involutive. reflexivity.
Qed.
Lemma ec_class : forall e n, n < 64 -> esr_ec e = EC n <-> bits e 31 26 = n.
Proof.
  intros e n L. pose proof (esr_ec_field e n L) as E. unfold field in E. unfold bits. change (31 - 26 + 1) with 6. split; intro K.
  - apply N.eqb_eq. rewrite <- E. apply N.eqb_eq, K.
  - apply N.eqb_eq. rewrite E. apply N.eqb_eq, K.
Qed.

Lemma emulated_dec : forall e, icc_emulated e \/ ~ icc_emulated e.
Proof.
  intro e. unfold icc_emulated, writes, accesses.
  set (b := (negb (N.testbit e 0)) && ((bits e 21 20 =? 3) && (bits e 16 14 =? 0) && (bits e 13 10 =? 12) && (bits e 4 1 =? 11) && ((bits e 19 17 =? 1) || (bits e 19 17 =? 5) || (bits e 19 17 =? 7)))).
  destruct b eqn:E; subst b; [left|right]; [|intros (K1 & K2); rewrite K1 in E; revert E; destruct K2 as [(-> & -> & -> & -> & ->)|[(-> & -> & -> & -> & ->)|(-> & -> & -> & -> & ->)]]; discriminate].
  destruct (N.testbit e 0); [discriminate E|]. cbn [negb] in E. split; [reflexivity|]. lia.
Qed.

Lemma harmless_exit : forall ev r simd, exit_expected ev r simd -> ~ realm_stops ev r -> exit_ok ev r simd.
Proof.
  intros ev r simd (RM & H) NS. split; [exact RM|]. unfold realm_stops in NS. destruct (ev_exc ev); try exact Logic.I.
  - destruct H as (H1 & H2 & H3 & H4). set (e := ev_esr ev) in *.
    split; [|split; [|split]].
    + intro K. apply (ec_class e 23 eq_refl) in K. apply Z.nlt_ge. intro F. apply NS. split; [reflexivity|]. left. split; [exact K|exact F].
    + intro K. apply (ec_class e 24 eq_refl) in K. specialize (H1 K). split; [unfold ESR_IL; rewrite has_pow2; exact H1|]. split.
      * intro M. rewrite write_bit. specialize (H2 K). unfold writes in H2. destruct (N.testbit e 0); [reflexivity|]. exfalso.
        apply H2; [| | |reflexivity]; fld M.
      * intro M. assert (IC : icc e).
        { destruct M as [M|M]; [right|left]; unfold accesses.
          - split; [fld M|].
            split; [fld M|].
            split; [fld M|].
            pose proof (masked e _ _ 4 4 M ltac:(discriminate) eq_refl) as B. change (bits ESR_ICC_EL1 4 4) with 1 in B. revert B. unfold bits. clear.
            change (4 - 4 + 1) with 1. change (4 - 1 + 1) with 4. change (2 ^ 4) with 16. change (2 ^ 1) with 2. lia.
          - do 4 (split; [fld M|]). fld M. }
        assert (EM : icc_emulated e) by (destruct (emulated_dec e) as [D|D]; [exact D|exfalso; apply NS; split; [reflexivity|]; right; auto]).
        destruct EM as [W A]. rewrite write_bit. unfold writes in W. rewrite W. split; [|reflexivity]. rewrite sysreg_fields.
        destruct A as [(-> & -> & -> & -> & ->)|[(-> & -> & -> & -> & ->)|(-> & -> & -> & -> & ->)]]; vm_compute; auto.
    + intros K F. assert (K' : bits e 31 26 = 32 \/ bits e 31 26 = 36) by (destruct K as [K|K]; [left; apply (ec_class e 32 eq_refl), K|right; apply (ec_class e 36 eq_refl), K]).
      specialize (H3 K'). unfold FSC_MASK in F. rewrite mask_bits in F by reflexivity. change (0 + 6 - 1) with 5 in F. rewrite N.pow_0_r, N.mul_1_r in F.
      unfold fsc_is_external_abort, FSC_SEA in F. unfold SET_MASK. rewrite mask_bits by reflexivity. change (11 + 2 - 1) with 12.
      destruct H3 as [->| ->]; [lia|left; reflexivity|right; reflexivity].
    + intro K. specialize (H4 K). destruct H4 as [F1 F2]. split.
      * intro X. apply F1. apply (ec_class e 7 eq_refl), X.
      * intros [X Y]. apply (ec_class e 25 eq_refl) in X. rewrite (F2 X) in Y. discriminate Y.
  - destruct H as (H1 & H2 & H3). set (e := ev_esr ev) in *. unfold SERROR_IDS_BIT. rewrite has_pow2. split; [exact H1|]. rewrite !mask_bits by reflexivity.
    change (0 + 6 - 1) with 5. change (10 + 3 - 1) with 12. rewrite H2. split; [reflexivity|].
    destruct H3 as [<-|[<-|[<-|[<-|[]]]]]; vm_compute; auto.
Qed.

(** ** Commands *)

Lemma firstn_in : forall (f : nat -> N) n, forall i, (i < n)%nat -> nth_error (map f (seq 0 n)) i = Some (f i).
Proof.
  intros f n i L. rewrite nth_error_map. replace (nth_error (seq 0 n) i) with (Some i); [reflexivity|].
  symmetry. rewrite nth_error_nth' with (d := O) by (rewrite seq_length; exact L). rewrite seq_nth by exact L. reflexivity.
Qed.

Lemma stops_bad : forall c m k, cmd_bad c (m_gr m) k -> stops c m k.
Proof.
  intros c m k B. destruct k; cbn [cmd_bad] in B; try contradiction.
  - subst. constructor.
  - destruct B as (p & -> & N16 & l1 & a & l2 & E & Ne & ND & U & Bad). unfold aux_list in E. set (n := rp_num_aux p mod 2 ^ 32) in *.
    assert (NT : forall i, (i < length (l1 ++ a :: l2))%nat -> nth_error (l1 ++ a :: l2) i = Some (rp_aux p (N.of_nat i))).
    { intros i Hi. rewrite <- E in Hi |- *. rewrite map_length, seq_length in Hi. apply (firstn_in (fun i => rp_aux p (N.of_nat i))), Hi. }
    assert (LN : length (l1 ++ a :: l2) = N.to_nat n) by (rewrite <- E, map_length, seq_length; reflexivity).
    rewrite app_length in NT, LN. cbn [length] in NT, LN.
    assert (N1 : forall i, (i < length l1)%nat -> nth_error l1 i = Some (rp_aux p (N.of_nat i))).
    { intros i Hi. rewrite <- (NT i) by lia. symmetry. apply nth_error_app1, Hi. }
    assert (N2 : rp_aux p (N.of_nat (length l1)) = a).
    { specialize (NT (length l1) ltac:(lia)). rewrite nth_error_app2, PeanoNat.Nat.sub_diag in NT by lia. cbn [nth_error] in NT. congruence. }
    apply sp_aux with (n := N.of_nat (length l1)).
    + fold n. destruct l1; [congruence|]. cbn [length] in *. lia.
    + fold n. change MAX_REC_AUX_GRANULES with 16 in N16. exact N16.
    + assert (D : forall i, i < N.of_nat (length l1) -> nth_error l1 (N.to_nat i) = Some (rp_aux p i)).
      { intros i Hi. rewrite N1 by lia. rewrite N2Nat.id. reflexivity. }
      split; [|split].
      * intros i Hi. apply U. eapply nth_error_In, D, Hi.
      * intros i j Hij Hj EQ. rewrite NoDup_nth_error in ND. assert (N.to_nat i = N.to_nat j) by (apply ND; [lia|rewrite !D by lia; rewrite EQ; reflexivity]). lia.
      * rewrite N2. destruct Bad as [Bad|[Bad|Bad]].
        -- left. intros [K _]. congruence.
        -- left. intros [_ K]. contradiction.
        -- right. apply In_nth_error in Bad. destruct Bad as [i Hi]. exists (N.of_nat i).
           assert (Li : (i < length l1)%nat) by (apply nth_error_Some; rewrite Hi; discriminate). split; [lia|]. rewrite (N1 _ Li) in Hi. congruence.
  - destruct B as (d & R & L). eapply sp_map; [exact R|exact L].
  - destruct B as (d & R & L). eapply sp_unmap; [exact R|exact L].
  - destruct B as (rc & rt & R1 & R2 & P & E & _ & X). eapply sp_psci; try eassumption. congruence.
Qed.

Theorem harmless_step : forall c h m o, reachable c h m -> op_ok o ->
  ~ stuck (step c h m o) /\ (harmless c m o -> ~ stopped (step c h m o)).
Proof.
  intros c h m o Re OK. destruct (reach_minv _ _ _ Re) as [gh M]. pose proof (step_safe c h gh m o (proj1 Re) M OK) as SS.
  unfold stuck, stopped. destruct (step c h m o); try (split; [intros [?|?]; discriminate|intros; discriminate]); try contradiction.
  split; [intros [?|?]; discriminate|]. intros H _. destruct o; cbn [op_bad harmless] in *; try contradiction.
  - apply H, stops_bad, SS.
  - destruct SS as (r & R & HC & F). exact (H r R HC F).
  - destruct SS as (ru & r & E & R & NX). destruct (H ru r E R) as [H1 H2]. apply NX, harmless_exit; assumption.
Qed.

(** ** Locks *)

Lemma free_unlock : forall A (p : prog A) s, releases_free p s -> run p s = Panicked.
Proof.
  intros A p s (n & g & k & s' & F & [E|E]); rewrite (run_acts _ _ _ _ _ _ E); cbn [run]; rewrite F; reflexivity.
Qed.
Lemma harmless_locks : forall c h m p k, reachable c h m -> op_ok (OCmd p k) -> m_cpu m p = None -> ~ stops c m k ->
  ~ releases_free (cmd_prog c (m_gr m) k) (cpu_state m p).
Proof.
  intros c h m p k Re OK NC NS RF. apply free_unlock in RF. pose proof (proj2 (harmless_step c h m (OCmd p k) Re OK) NS) as K. apply K.
  unfold stopped. cbn [step]. rewrite NC, RF. reflexivity.
Qed.

(** ** Slots and locks between steps *)
Lemma at_rest : forall c h m, reachable c h m -> (forall a, m_locks m a = false) /\ (forall p z, m_cpu m p = None -> m_slots m p z = false).
Proof.
  intros c h m Re. destruct (reach_minv _ _ _ Re) as [gh M]. split; [apply (mv_locks _ _ _ M)|].
  intros p z E. rewrite (mv_slots _ _ _ M), E. reflexivity.
Qed.
Lemma running_slots : forall c h m p z, reachable c h m -> m_cpu m p <> None ->
  (m_slots m p z = true <-> z = SLOT_REC \/ (SLOT_REC_AUX0 <= z /\ z < SLOT_REC_AUX0 + 16)).
Proof.
  intros c h m p z Re NE. destruct (reach_minv _ _ _ Re) as [gh M]. rewrite (mv_slots _ _ _ M). destruct (m_cpu m p); [|congruence].
  unfold busy. change SLOT_REC with 3. change SLOT_REC_AUX0 with 6. change SLOT_RTT with 22. lia.
Qed.
