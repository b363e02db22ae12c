(** RECs: the initial state, PSCI calls, the effect of exceptions, interrupts and timers *)
From Coq Require Import NArith ZArith List Bool Lia ZifyBool ZifyN.
From Verif Require Import Bits S2tte S2tteFacts State Granule Wp RecFields Measure RmiRtt RmiRealm Psci RmiRec Gic Esr Rsi RecRun
  Arch ArchFacts Mmu Machine Spec SpecStep SpecExit SpecRec SpecRsi SpecSafe SpecRun Inv InvTree MmuFacts InvStep InvStep2 InvStep3 Effects Frames CmdLib CmdData CmdRipas
  CmdRec CmdRealm CmdRsi CmdRsi2 CmdRun CmdRun2 CmdAll MInv MStep View StepView Own ExitFacts Step Step2 Step3 Step4 Step5 Step6 Step7 Step8 Step9 Step10 Step11 Step12 Mpidr Safe.
Import ListNotations.
Local Open Scope N_scope.

(** ** The initial state *)
Lemma mpidr_start : forall w, N.lor (rec_mpidr_to_mpidr w) VMPIDR_EL2_RES1 = mpidr_el1 w.
Proof.
  intro w. unfold rec_mpidr_to_mpidr, mpidr_el1. rewrite !N.land_lor_distr_r, !land_mask_field.
  change VMPIDR_EL2_RES1 with (1 * 2 ^ 31). rewrite N.shiftl_mul_pow2.
  assert (B0 : field w 0 4 < 16) by (apply N.mod_lt; discriminate). assert (B1 : field w 8 8 < 256) by (apply N.mod_lt; discriminate).
  assert (B2 : field w 16 8 < 256) by (apply N.mod_lt; discriminate). assert (B3 : field w 24 8 < 256) by (apply N.mod_lt; discriminate).
  generalize dependent (field w 0 4). generalize dependent (field w 8 8). generalize dependent (field w 16 8). generalize dependent (field w 24 8). clear w.
  intros d Hd cc Hc b Hb a Ha. replace (a * 2 ^ 0) with a by (change (2 ^ 0) with 1; lia).
  rewrite (lor_add_low a b 8) by (change (2 ^ 8) with 256; lia). rewrite (lor_add_low _ cc 16) by (change (2 ^ 8) with 256; change (2 ^ 16) with 65536; lia).
  rewrite (N.lor_comm (_ + _)), <- N.lor_assoc. rewrite (lor_add_low _ 1 31) by (change (2 ^ 31) with 2147483648; change (2 ^ 8) with 256; change (2 ^ 16) with 65536; lia).
  replace (d * 2 ^ 24 * 2 ^ 8) with (d * 2 ^ 32) by (change (2 ^ 24) with 16777216; change (2 ^ 8) with 256; change (2 ^ 32) with 4294967296; lia).
  rewrite N.lor_comm, lor_add_low by (change (2 ^ 32) with 4294967296; change (2 ^ 31) with 2147483648; change (2 ^ 8) with 256; change (2 ^ 16) with 65536; lia). lia.
Qed.

Lemma const_bits : forall w f k, w < 2 ^ N.of_nat k -> (forall b, N.of_nat k <= b -> f b = false) ->
  forallb (fun b => Bool.eqb (N.testbit w (N.of_nat b)) (f (N.of_nat b))) (seq 0 k) = true -> forall b, N.testbit w b = f b.
Proof.
  intros w f k L H F b. destruct (N.ltb_spec b (N.of_nat k)) as [B|B].
  - rewrite forallb_forall in F. specialize (F (N.to_nat b)). rewrite N2Nat.id in F. apply Bool.eqb_prop, F. apply in_seq. lia.
  - rewrite H by exact B. destruct (N.eq_dec w 0) as [->|NZ]; [apply N.bits_0|]. apply N.bits_above_log2. apply N.log2_lt_pow2; [lia|]. eapply N.lt_le_trans; [exact L|]. apply N.pow_le_mono_r; [discriminate|exact B].
Qed.

Lemma new_rec_initial : forall c d rd p, rp_num_aux p mod 2 ^ 32 = 16 ->
  initial c d p (new_rec c rec_zero d rd p (rd_rec_count d) (aux_list p (rp_num_aux p mod 2 ^ 32))).
Proof.
  intros c d rd p A. rewrite A. unfold initial, new_rec.
  cbn [r_pc r_regs r_runnable r_aux r_pstate r_sp_el0 r_sys r_common_hcr r_gic r_psci_pending r_host_call r_serror_inject r_set_ripas r_last_esr r_ctx r_algorithm r_simd r_pmu_enabled r_pmu_num_ctrs r_mdcr].
  split; [reflexivity|]. split; [reflexivity|]. split; [apply bit0|].
  split; [reflexivity|]. split; [reflexivity|]. split; [reflexivity|].
  split. { intro q. rewrite <- mpidr_start || idtac. unfold init_rec_sysregs. destruct q; try reflexivity. cbn [start_sys]. rewrite <- mpidr_start. reflexivity. }
  split. { apply (const_bits _ _ 64); [vm_compute; reflexivity| |vm_compute; reflexivity]. intros b B. cbn [existsb hcr_bits]. change (N.of_nat 64) with 64 in B. 
           repeat match goal with |- (?x || ?y) = false => apply orb_false_iff; split end; try reflexivity; apply N.eqb_neq; intros ->; apply B; reflexivity. }
  split; [intro; repeat split|]. split; [reflexivity|]. split; [reflexivity|].
  do 10 (split; [reflexivity|]).
  intros b B. unfold realm_mdcr. destruct (rd_pmu_enabled d).
  - unfold INPLACE. autorewrite with tbit. change (bits_or [6; 5]) with (2 ^ 6 + 2 ^ 5). destruct B as [-> | ->]; rewrite ?andb_false_r; reflexivity.
  - rewrite N.lor_spec. destruct B as [-> | ->]; apply orb_true_r.
Qed.

Lemma created_init : forall c h m o m' rp p rd a pa x, next c h m o m' rp -> done o rp (KRecCreate (Some p) rd a pa) x ->
  exists d rc, realm m rd d /\ rec_is m' a rc /\ initial c d p rc.
Proof.
  intros c h m o m' rp p rd a pa x H D. destruct (cmd_done_eff _ _ _ _ _ _ _ _ H D) as (gh & gh' & labs & inv & M & M' & GE & K & OK & _).
  destruct K as [(NO & _)|(_ & _ & q & d & rc & E & R & Sn & _ & _ & _ & IX & NA & -> & ->)]; [contradiction|]. injection E as <-.
  exists d. eexists. split; [exact R|]. 
  inversion GE as [|? ? ? ? gh1 G1 V1 ? ? ? ? X1 X2]; subst. inversion X2 as [? ? ? ? ? HG HV2|]; subst. inversion X1; subst.
  split; [|apply new_rec_initial; rewrite NA; apply (inv_rd_ok _ _ _ _ (mv_inv _ _ _ M) _ _ R)].
  unfold rec_is. rewrite HG. match goal with E : G1 a = _ |- _ => rewrite E end. split; reflexivity.
Qed.

(** ** PSCI *)
Definition pm (f : N) (on aff feat : psci_does) : psci_does :=
  if f =? 0x84000000 then Answer 0x10001
  else if (f =? 0x84000001) || (f =? 0xC4000001) then Suspend
  else if f =? 0x84000002 then Off
  else if (f =? 0x84000003) || (f =? 0xC4000003) then on
  else if (f =? 0x84000004) || (f =? 0xC4000004) then aff
  else if (f =? 0x84000008) || (f =? 0x84000009) then SystemOff
  else if f =? 0x8400000A then feat
  else Answer (minus 1).

Definition psci_out (d : rdesc) (v : vcpu) (labs : list label) (v2 : vcpu) (s : rsi) : Prop :=
  let r := v_rec v in
  let ex n := ex_set_reason (ex_set_gprs (v_exit v) (forward_args n r)) RMI_EXIT_PSCI in
  match psci_meaning d r with
  | Answer w => labs = [] /\ v2 = v /\ s = ret_realm (rx0 r w)
  | Suspend => labs = [] /\ v2 = v_set_exit v (ex 1) /\ s = ret_host (rx0 r 0)
  | Off => labs = [] /\ v2 = mkV (set_runnable r false) (ex 1) (v_att v) /\ s = ret_host (rx0 r 0)
  | SystemOff => labs = [LRd (r_g_rd r) d (set_rd_state d REALM_SYSTEM_OFF)] /\ v2 = v_set_exit v (ex 1) /\ s = exit_host (rx0 r 0)
  | Ask => labs = [] /\ v2 = mkV (set_psci_pending r true) (ex 2) (v_att v) /\ s = exit_host (rx0 r 0)
  end.

Lemma psci_eff : forall c env gh G d v labs v2 s, rsi_out c env gh G d v labs (v2, s) -> psci_id (r_regs (v_rec v) 0 mod 2 ^ 32) -> psci_out d v labs v2 s.
Proof.
  intros c env gh G d v labs v2 s Hs P.
  assert (NR : forall n, n <= 9 -> rsi_fid v <> SMC_RSI_FID n).
  { intros n L E. unfold psci_id in P. rewrite clear_hint in P. unfold rsi_fid, u32 in E. rewrite E in P. unfold SMC_RSI_FID in P. cbv zeta in P. lia. }
  assert (NS : rsi_fid v <> SMCCC_VERSION).
  { intro E. unfold psci_id in P. rewrite clear_hint in P. unfold rsi_fid, u32 in E. rewrite E in P. unfold SMCCC_VERSION in P. cbv zeta in P. lia. }
  assert (PR : Rsi.in_range (SMC32_PSCI_FID 0) (rsi_fid v) (SMC32_PSCI_FID 20) || Rsi.in_range (SMC64_PSCI_FID 0) (rsi_fid v) (SMC64_PSCI_FID 20) = true).
  { unfold psci_id in P. rewrite clear_hint in P. unfold rsi_fid, u32, Rsi.in_range, SMC32_PSCI_FID, SMC64_PSCI_FID. cbv zeta in P. revert P. generalize (N.ldiff (r_regs (v_rec v) 0 mod 2 ^ 32) SMC_SVE_HINT). clear. intros w P. lia. }
  clear P. unfold psci_out. cbv zeta.
  set (on := if 2 ^ (ipa_bits (rd_ctx d) - 1) <=? r_regs (v_rec v) 2 then Answer (minus 9)
    else if rd_rec_count d <=? realm_index (r_regs (v_rec v) 1) then Answer (minus 2)
    else if realm_index (r_regs (v_rec v) 1) =? r_idx (v_rec v) then Answer (minus 4) else Ask).
  set (aff := if negb (r_regs (v_rec v) 2 =? 0) || (rd_rec_count d <=? realm_index (r_regs (v_rec v) 1)) then Answer (minus 2)
    else if realm_index (r_regs (v_rec v) 1) =? r_idx (v_rec v) then Answer 0 else Ask).
  set (feat := Answer (if existsb (N.eqb (r_regs (v_rec v) 1 mod 2 ^ 32)) psci_known then 0 else minus 1)).
  assert (PM : psci_meaning d (v_rec v) = pm (psci_fid v) on aff feat) by reflexivity. rewrite PM. clear PM.
  assert (NO : forall n, rsi_fid v = SMC_RSI_FID n -> n <= 9 -> False) by (intros n E L; exact (NR n L E)).
  Ltac gone NO := exfalso; match goal with X : rsi_fid _ = SMC_RSI_FID _ |- _ => refine (NO _ X _); vm_compute; discriminate end.
  Ltac known X := match type of X with _ = ?k => let kk := eval vm_compute in k in change k with kk in X end; rewrite X; cbn [pm N.eqb Pos.eqb orb].
  assert (Eon : forall w, on = Answer w -> cpu_on_fid v -> pm (psci_fid v) on aff feat = Answer w).
  { intros w E [X|X]; known X; exact E. }
  assert (Eaf : forall w, aff = Answer w -> affinity_fid v -> pm (psci_fid v) on aff feat = Answer w).
  { intros w E [X|X]; known X; exact E. }
  subst on aff. rewrite <- (idx_fields (r_regs (v_rec v) 1)) in *.
  change v2 with (fst (v2, s)). change s with (snd (v2, s)) at 2 4 6 8 10. remember (v2, s) as o eqn:Eo. clear v2 s Eo.
  inversion Hs; subst; clear Hs; try gone NO; cbn [fst snd].
  - match goal with X : rsi_plain _ _ _ _ _ |- _ => inversion X; subst; clear X; try gone NO end.
    + contradiction.
    + match goal with X : psci_fid v = _ |- _ => known X end. auto.
    + erewrite Eon; [|destruct (N.leb_spec (2 ^ (ipa_bits (rd_ctx d) - 1)) (r_regs (v_rec v) 2)); [reflexivity|lia]|assumption]. auto.
    + erewrite Eon; [|destruct (N.leb_spec (2 ^ (ipa_bits (rd_ctx d) - 1)) (r_regs (v_rec v) 2)); [lia|]; destruct (N.leb_spec (rd_rec_count d) (mpidr_to_rec_idx (r_regs (v_rec v) 1))); [reflexivity|lia]|assumption]. auto.
    + erewrite Eon; [|destruct (N.leb_spec (2 ^ (ipa_bits (rd_ctx d) - 1)) (r_regs (v_rec v) 2)); [lia|]; destruct (N.leb_spec (rd_rec_count d) (mpidr_to_rec_idx (r_regs (v_rec v) 1))); [lia|]; destruct (N.eqb_spec (mpidr_to_rec_idx (r_regs (v_rec v) 1)) (r_idx (v_rec v))); [reflexivity|congruence]|assumption]. auto.
    + erewrite Eaf; [|destruct (N.eqb_spec (r_regs (v_rec v) 2) 0); destruct (N.leb_spec (rd_rec_count d) (mpidr_to_rec_idx (r_regs (v_rec v) 1))); try reflexivity; lia|assumption]. auto.
    + erewrite Eaf; [|destruct (N.eqb_spec (r_regs (v_rec v) 2) 0); [|contradiction]; destruct (N.leb_spec (rd_rec_count d) (mpidr_to_rec_idx (r_regs (v_rec v) 1))); [lia|]; destruct (N.eqb_spec (mpidr_to_rec_idx (r_regs (v_rec v) 1)) (r_idx (v_rec v))); [reflexivity|congruence]|assumption]. auto.
    + match goal with X : psci_fid v = _ |- _ => known X end. split; [reflexivity|]. split; reflexivity.
    + match goal with X : ~ In (psci_fid v) _ |- _ => 
        assert (Q : forall k, existsb (N.eqb k) [0x84000000; 0x84000001; 0xC4000001; 0x84000002; 0x84000003; 0xC4000003; 0x84000004; 0xC4000004; 0x84000008; 0x84000009; 0x8400000A] = true -> psci_fid v =? k = false)
          by (intros k K; apply N.eqb_neq; intros <-; apply X; apply existsb_exists in K; destruct K as (k & K & E); apply N.eqb_eq in E; rewrite E; exact K) end.
      unfold pm. rewrite !Q by reflexivity. cbn [orb]. auto.
    + congruence.
  - match goal with X : att_out _ _ _ _ _ _ |- _ => inversion X; subst; clear X; try gone NO end.
    exfalso. match goal with X : _ \/ _ |- _ => destruct X as [X|[X|X]]; destruct X as [X _] end; gone NO.
  - match goal with X : page_out _ _ _ _ _ _ _ |- _ => inversion X; subst; clear X; gone NO end.
  - match goal with X : In _ _ |- _ => fold (psci_fid v) in X end.
    assert (E : pm (psci_fid v) (if 2 ^ (ipa_bits (rd_ctx d) - 1) <=? r_regs (v_rec v) 2 then Answer (minus 9)
      else if rd_rec_count d <=? mpidr_to_rec_idx (r_regs (v_rec v) 1) then Answer (minus 2)
      else if mpidr_to_rec_idx (r_regs (v_rec v) 1) =? r_idx (v_rec v) then Answer (minus 4) else Ask) 
      (if negb (r_regs (v_rec v) 2 =? 0) || (rd_rec_count d <=? mpidr_to_rec_idx (r_regs (v_rec v) 1)) then Answer (minus 2)
      else if mpidr_to_rec_idx (r_regs (v_rec v) 1) =? r_idx (v_rec v) then Answer 0 else Ask) feat = Ask); [|rewrite E; auto].
    destruct (N.leb_spec (rd_rec_count d) (mpidr_to_rec_idx (r_regs (v_rec v) 1))); [lia|]. destruct (N.eqb_spec (mpidr_to_rec_idx (r_regs (v_rec v) 1)) (r_idx (v_rec v))); [contradiction|].
    match goal with X : In _ _ |- _ => destruct X as [X|[X|[X|[X|[]]]]] end; symmetry in H; 
      [assert (P : cpu_on_fid v) by (left; assumption)|assert (P : cpu_on_fid v) by (right; assumption)|assert (P : affinity_fid v) by (left; assumption)|assert (P : affinity_fid v) by (right; assumption)]; known H;
      [destruct (N.leb_spec (2 ^ (ipa_bits (rd_ctx d) - 1)) (r_regs (v_rec v) 2)); [|reflexivity]|destruct (N.leb_spec (2 ^ (ipa_bits (rd_ctx d) - 1)) (r_regs (v_rec v) 2)); [|reflexivity]|destruct (N.eqb_spec (r_regs (v_rec v) 2) 0); [reflexivity|]|destruct (N.eqb_spec (r_regs (v_rec v) 2) 0); [reflexivity|]]; exfalso;
      [match goal with X : cpu_on_fid v -> _ |- _ => specialize (X P) end; lia..|match goal with X : affinity_fid v -> _ |- _ => specialize (X P) end; contradiction|match goal with X : affinity_fid v -> _ |- _ => specialize (X P) end; contradiction].
  - match goal with X : psci_fid v = _ \/ _ |- _ => destruct X as [X|X]; known X end; auto.
  - match goal with X : psci_fid v = _ |- _ => known X end. auto.
  - match goal with X : psci_fid v = _ \/ _ |- _ => destruct X as [X|X]; known X end; auto.
  - exfalso. match goal with X : _ \/ _ |- _ => destruct X as [X|[X|X]]; destruct X as [X _] end; gone NO.
Qed.

Lemma psci_called : forall c h m o m' rp a r r' d, next c h m o m' rp -> smc m o a r -> psci_id (r_regs r 0 mod 2 ^ 32) -> realm m (r_g_rd r) d -> rec_is m' a r' ->
  psci_effect m m' rp a d r r' (psci_meaning d r).
Proof.
  intros c h m o m' rp a r r' d H SM P RD1 R'.
  destruct (smc_step _ _ _ _ _ _ _ _ _ H SM RD1) as (gh & p & ev & fi & tm & labs & v2 & s & r2 & Eo & M & M' & R2 & RO & OUT & _ & (E1 & E2) & PE & GR & _ & RP).
  assert (r2 = r') by (destruct R2, R'; congruence). subst r2. destruct SM as (p1 & ev1 & fi1 & tm1 & _ & EX & R & _).
  apply psci_eff in OUT; [|exact P]. unfold psci_out in OUT. cbn [v_rec v_exit v_att] in OUT. cbv zeta in OUT. unfold psci_effect. cbv zeta.
  destruct (psci_meaning d r); destruct OUT as (-> & -> & ->); cbn [v_rec ra_update ra_abort ra_exit ra_x ret_realm ret_host exit_host] in *;
    (assert (PR : r_runnable r' = r_runnable r' ) by reflexivity); unfold pend in PE; injection PE as P1 P2 P3 P4; cbn [set_runnable set_psci_pending v_set_exit v_rec r_runnable r_psci_pending] in P3, P4.
  - split; [apply returned_rx; assumption|]. split; [apply only_nil; assumption|]. split; [|auto].
    destruct RP as [(_ & RP)|(x & TD & RP)]; [left; exact RP|right]. rewrite RP. destruct (fi_wok fi); [right|left; reflexivity]. exists x. split; [reflexivity|].
    eapply report_told; [exact TD|]. apply report_eq; reflexivity.
  - split; [apply returned_rx; assumption|]. split; [apply only_nil; assumption|]. split; [|auto].
    destruct RP as [(RP & _)|(x & TD & RP)]; [discriminate RP|]. rewrite RP. destruct (fi_wok fi); [right|left; reflexivity]. exists x. split; [reflexivity|].
    eapply report_told; [exact TD|]. unfold rsi_result. cbn [fst snd ra_abort ra_update ra_exit ret_host negb v_exit v_set_exit]. apply report_eq; reflexivity.
  - split; [apply returned_rx; assumption|]. split; [apply only_nil; assumption|]. split; [|auto].
    destruct RP as [(RP & _)|(x & TD & RP)]; [discriminate RP|]. rewrite RP. destruct (fi_wok fi); [right|left; reflexivity]. exists x. split; [reflexivity|].
    eapply report_told; [exact TD|]. unfold rsi_result. cbn [fst snd ra_abort ra_update ra_exit ret_host negb v_exit v_set_exit]. apply report_eq; reflexivity.
  - split; [split; [intro i; rewrite E1; reflexivity|exact E2]|]. split; [eapply only_two; exact GR|]. split.
    + destruct RP as [(RP & _)|(x & TD & RP)]; [discriminate RP|]. rewrite RP. destruct (fi_wok fi); [right|left; reflexivity]. exists x. split; [reflexivity|].
      eapply report_told; [exact TD|]. unfold rsi_result. cbn [fst snd ra_abort ra_update ra_exit exit_host negb v_exit v_set_exit]. apply report_eq; reflexivity.
    + exists (set_rd_state d REALM_SYSTEM_OFF). split; [|repeat split].
      assert (NA : r_g_rd r <> a) by (destruct R as [R0 _], RD1 as [D0 _]; congruence).
      unfold realm. rewrite (GR _ NA). unfold after_labs. cbn [fold_left]. rewrite upd_same. split; reflexivity.
  - split; [split; [intro i; rewrite E1; reflexivity|exact E2]|]. split; [apply only_nil; assumption|]. split; [|auto].
    destruct RP as [(RP & _)|(x & TD & RP)]; [discriminate RP|]. rewrite RP. destruct (fi_wok fi); [right|left; reflexivity]. exists x. split; [reflexivity|].
    eapply report_told; [exact TD|]. unfold rsi_result. cbn [fst snd ra_abort ra_update ra_exit exit_host negb v_exit v_set_exit]. apply report_eq; reflexivity.
Qed.

(** ** Exceptions *)
Lemma fields4_bits : forall l b, N.testbit (fields4 l) b = existsb (fun f => (f <=? b) && (b <? f + 4)) l.
Proof.
  induction l as [|f l IH]; intro b; [apply N.bits_0|]. cbn [fields4 fold_right existsb]. rewrite N.lor_spec, testbit_mask. f_equal. apply IH.
Qed.
Lemma id_masks : forall h sve crm op2, crm < 16 -> op2 < 8 ->
  id_value h sve (SYSREG_ESR 3 0 0 crm op2) =
    if id_known h sve crm op2 then N.ldiff (h_id h (3 * 2 ^ 20 + op2 * 2 ^ 17 + crm * 2)) (fields4 (id_hidden sve crm op2)) else 0.
Proof.
  intros h sve crm op2 L1 L2.
  assert (K1 : In crm [0; 1; 2; 3; 4; 5; 6; 7; 8; 9; 10; 11; 12; 13; 14; 15]) by (clear - L1; cbn [In]; lia).
  assert (K2 : In op2 [0; 1; 2; 3; 4; 5; 6; 7]) by (clear - L2; cbn [In]; lia). clear L1 L2.
  cbn [In] in K1, K2.
  repeat (destruct K1 as [<-|K1]); try contradiction K1;
    repeat (destruct K2 as [<-|K2]); try contradiction K2; try reflexivity;
  match goal with
  | |- context[SYSREG_ESR 3 0 0 4 0] => idtac
  | |- context[SYSREG_ESR 3 0 0 4 4] => idtac
  | |- _ => cbn [id_known id_hidden existsb fst snd N.eqb Pos.eqb andb orb]; unfold id_value; rewrite ?N.ldiff_0_r; reflexivity
  end.
  - set (x := h_id h (SYSREG_ESR 3 0 0 4 0)). change (h_id h (3 * 2 ^ 20 + 0 * 2 ^ 17 + 4 * 2)) with x.
    change (id_value h sve (SYSREG_ESR 3 0 0 4 0)) with
      (if negb (EXTRACT 4 32 (N.ldiff x PFR0_CLEAR) =? 0) && negb sve then N.ldiff (N.ldiff x PFR0_CLEAR) PFR0_SVE else N.ldiff x PFR0_CLEAR).
    change (id_known h sve 4 0) with true. cbv iota. destruct sve; cbn [negb]; [rewrite andb_false_r; reflexivity|]. rewrite andb_true_r.
    change (fields4 (id_hidden false 4 0)) with (N.lor PFR0_CLEAR PFR0_SVE). rewrite <- N.ldiff_ldiff_l.
    destruct (N.eqb_spec (EXTRACT 4 32 (N.ldiff x PFR0_CLEAR)) 0) as [E|]; cbn [negb]; [|reflexivity].
    rewrite extract_field in E. apply N.bits_inj. intro b. rewrite (N.ldiff_spec (N.ldiff x PFR0_CLEAR)). unfold PFR0_SVE. rewrite testbit_mask.
    destruct (N.leb_spec 32 b) as [B|B]; cbn [andb negb]; [|rewrite andb_true_r; reflexivity]. destruct (N.ltb_spec b (32 + 4)) as [B2|B2]; cbn [negb]; [|rewrite andb_true_r; reflexivity].
    rewrite andb_false_r. assert (T : N.testbit (field (N.ldiff x PFR0_CLEAR) 32 4) (b - 32) = false) by (rewrite E; apply N.bits_0).
    unfold field in T. rewrite N.mod_pow2_bits_low in T by lia. rewrite <- N.shiftr_div_pow2, testbit_shiftr in T. replace (b - 32 + 32) with b in T by lia. exact T.
  - change (id_value h sve (SYSREG_ESR 3 0 0 4 4)) with (if h_sve h && sve then h_id h (SYSREG_ESR 3 0 0 4 4) else 0).
    change (id_known h sve 4 4) with (h_sve h && sve). destruct (h_sve h && sve); [|reflexivity]. change (id_hidden sve 4 4) with (@nil N). change (fields4 []) with 0. rewrite N.ldiff_0_r. reflexivity.
Qed.

Lemma id_seen_value : forall h sve esr, N.land esr ESR_EL2_SYSREG_ID_MASK = ESR_EL2_SYSREG_ID ->
  exists crm op2, accesses esr 3 0 0 crm op2 /\ id_seen h sve crm op2 (id_value h sve (N.land esr ESR_EL2_SYSREG_MASK)).
Proof.
  intros h sve esr M. exists (bits esr 4 1), (bits esr 19 17).
  assert (A : accesses esr 3 0 0 (bits esr 4 1) (bits esr 19 17)) by (unfold accesses; split; [fld M|]; split; [fld M|]; split; [fld M|auto]).
  split; [exact A|]. rewrite sysreg_fields. destruct A as (-> & -> & -> & _).
  pose proof (bits_lt esr 4 1) as L1. pose proof (bits_lt esr 19 17) as L2. change (2 ^ (4 - 1 + 1)) with 16 in L1. change (2 ^ (19 - 17 + 1)) with 8 in L2.
  generalize dependent (bits esr 4 1). generalize dependent (bits esr 19 17). intros op2 L2 crm L1 b.
  replace (N.lor (N.lor (N.lor (N.lor (3 * 2 ^ 20) (0 * 2 ^ 14)) (0 * 2 ^ 10)) (crm * 2 ^ 1)) (op2 * 2 ^ 17)) with (SYSREG_ESR 3 0 0 crm op2)
    by (unfold SYSREG_ESR; rewrite !N.shiftl_mul_pow2; reflexivity).
  rewrite id_masks by assumption. destruct (id_known h sve crm op2); cbn [andb]; [|apply N.bits_0]. rewrite N.ldiff_spec, fields4_bits. reflexivity.
Qed.
Lemma id_access : forall esr crm op2, accesses esr 3 0 0 crm op2 -> N.land esr ESR_EL2_SYSREG_ID_MASK = ESR_EL2_SYSREG_ID.
Proof.
  intros esr crm op2 (A1 & A2 & A3 & _). replace ESR_EL2_SYSREG_ID_MASK with (N.lor (N.lor (MASK 2 20) (MASK 3 14)) (MASK 4 10)) by reflexivity.
  rewrite !N.land_lor_distr_r, !mask_bits by reflexivity. change (20 + 2 - 1) with 21. change (14 + 3 - 1) with 16. change (10 + 4 - 1) with 13. rewrite A1, A2, A3. reflexivity.
Qed.
Lemma icc_access : forall esr, icc esr -> N.land esr ESR_ICC_EL1_MASK = ESR_ICC_EL1 \/ N.land esr ESR_EL2_SYSREG_MASK = ESR_ICC_PMR_EL1.
Proof.
  intros esr [(A1 & A2 & A3 & A4 & A5)|(A1 & A2 & A3 & A4)]; [right|left].
  - rewrite sysreg_fields, A1, A2, A3, A4, A5. reflexivity.
  - replace ESR_ICC_EL1_MASK with (N.lor (N.lor (N.lor (MASK 2 20) (MASK 2 14)) (MASK 4 10)) (MASK 1 4)) by reflexivity.
    rewrite !N.land_lor_distr_r, !mask_bits by reflexivity. change (20 + 2 - 1) with 21. change (14 + 2 - 1) with 15. change (10 + 4 - 1) with 13. change (4 + 1 - 1) with 4.
    rewrite A1, A2, A3. assert (E : bits esr 4 4 = 1); [|rewrite E; reflexivity]. revert A4. unfold bits. clear. change (4 - 1 + 1) with 4. change (4 - 4 + 1) with 1. change (2 ^ 4) with 16. change (2 ^ 1) with 2. lia.
Qed.
Lemma icc_writes : forall esr, In (N.land esr ESR_EL2_SYSREG_MASK) [ESR_ICC_DIR; ESR_ICC_SGI1R; ESR_ICC_SGI0R] -> sysreg_is_write esr = true -> icc_emulated esr.
Proof.
  intros esr K W. rewrite write_bit in W. split; [unfold writes; destruct (N.testbit esr 0); [discriminate W|reflexivity]|].
  destruct K as [M|[M|[M|[]]]]; symmetry in M; [left|right; left|right; right]; unfold accesses; do 4 (split; [fld M|]); fld M.
Qed.

Lemma inject_abort : forall r esr far ri, inject_sync_idabort r esr far 16 = Some ri -> realm_mode (r_pstate r) -> In (field esr 26 6) [32; 36] ->
  (~ (from_el0 (r_pstate r) = true /\ aarch32 (r_pstate r) = true /\ N.testbit (r_sys r SCTLR2_EL1) 5 = true) ->
    r_pc ri = vector_entry (r_sys r VBAR_EL1) (r_pstate r) (N.testbit (r_sys r SCTLR2_EL1) 5)) /\
  r_regs ri = r_regs r /\ r_sp_el0 ri = r_sp_el0 r /\
  r_pstate ri = pstate_el1h /\ r_sys ri FAR_EL1 = far /\ r_sys ri ELR_EL1 = r_pc r /\ r_sys ri SPSR_EL1 = r_pstate r /\
  injected_esr esr (r_pstate r) 16 (r_sys ri ESR_EL1) /\
  (forall q, ~ In q [FAR_EL1; ELR_EL1; SPSR_EL1; ESR_EL1] -> r_sys ri q = r_sys r q).
Proof.
  intros r esr far ri H RM EC. split.
  { intro A. destruct (inject_idabort_spec r esr far 16 RM) as (r' & E & P & _); [exact EC|reflexivity|exact A|]. rewrite H in E. injection E as <-. exact P. }
  unfold inject_sync_idabort in H. destruct (calc_esr_spec esr (r_pstate r) 16) as (e1 & E1 & E2); [exact EC|reflexivity|]. rewrite E1 in H.
  destruct (calc_vector_entry _ _ _); [|discriminate]. injection H as <-.
  do 6 (split; [reflexivity|]). split; [exact E2|].
  intros q Q. cbn [r_sys set_pstate set_pc set_sysreg set_sys]. unfold upd_sys. destruct q; try reflexivity; exfalso; apply Q; cbn; tauto.
Qed.

(** The registers of the realm in two RECs *)
Definition alike (r' r1 : recd) : Prop :=
  r_regs r' = r_regs r1 /\ r_pc r' = r_pc r1 /\ r_sp_el0 r' = r_sp_el0 r1 /\ r_pstate r' = r_pstate r1 /\ (forall q, ~ In q own_regs -> r_sys r' q = r_sys r1 q).

Lemma alike_aborted : forall r r1 r' esr far, alike r' r1 -> inject_sync_idabort r esr far 16 = Some r1 -> realm_mode (r_pstate r) -> In (field esr 26 6) [32; 36] -> aborted r r' esr far.
Proof.
  intros r r1 r' esr far (A1 & A2 & A3 & A4 & A5) J RM EC. destruct (inject_abort _ _ _ _ J RM EC) as (J1 & J2 & J3 & J4 & J5 & J6 & J7 & J8 & J9).
  unfold aborted. rewrite A1, A2, A3, A4, !A5 by (cbn; intuition discriminate). rewrite J2. split; [reflexivity|]. do 7 (split; [assumption|]).
  intros q N. rewrite A5 by (intro X; apply N, in_or_app; right; exact X). apply J9. intro X. apply N, in_or_app. left. exact X.
Qed.
Lemma alike_undefined : forall r r1 r', alike r' r1 -> realm_inject_undef_abort r = Some r1 -> realm_mode (r_pstate r) -> undefined r r'.
Proof.
  intros r r1 r' (A1 & A2 & A3 & A4 & A5) J RM. destruct (inject_undef_spec _ RM) as (r2 & J1 & J2 & J3 & J4 & J5 & J6 & J7 & J8). rewrite J in J1. injection J1 as <-.
  assert (E : r_regs r1 = r_regs r /\ r_sp_el0 r1 = r_sp_el0 r) by (rewrite <- J8; split; reflexivity). destruct E as [E1 E2].
  unfold undefined. rewrite A1, A2, A3, A4, !A5 by (cbn; intuition discriminate). rewrite E1. split; [reflexivity|]. do 2 (split; [assumption|]). split; [exact E2|]. do 3 (split; [assumption|]).
  intros q N. rewrite A5 by (intro X; apply N, in_or_app; right; exact X). apply J7. intro X. apply N, in_or_app. left. exact X.
Qed.
Lemma alike_stays : forall r r', alike r' r -> stays r r'.
Proof. intros r r' (A1 & A2 & A3 & A4 & A5). unfold stays, rest_kept. rewrite A1. auto. Qed.
Lemma alike_skips : forall r r', alike r' (advance_pc r) -> skips r r'.
Proof. intros r r' (A1 & A2 & A3 & A4 & A5). unfold skips, rest_kept. rewrite A1. auto. Qed.
Lemma alike_gets : forall r r' n v, alike r' (advance_pc (if n =? 31 then r else set_reg r n v)) -> gets r r' n v.
Proof.
  intros r r' n v (A1 & A2 & A3 & A4 & A5). unfold gets, rest_kept. rewrite A1, A2, A3, A4. destruct (N.eqb_spec n 31) as [->|NE]; cbn [r_regs r_pc r_sp_el0 r_pstate advance_pc set_pc set_reg set_regs] in *.
  - split; [reflexivity|]. split; [congruence|]. auto.
  - split; [intros i [K|K]; [apply upd_other; exact K|contradiction]|]. split; [intros _; apply upd_same|]. auto.
Qed.

Lemma class_in : forall ev l, Forall (fun n => n < 64) l -> In (esr_ec (ev_esr ev)) (map EC l) <-> In (class ev) l.
Proof.
  intros ev l H. induction H as [|n l L _ IH]; [reflexivity|]. cbn [map In]. rewrite IH. split; intros [K|K]; auto; left.
  - symmetry. apply class_ec; [exact L|]. symmetry. exact K.
  - symmetry. apply class_ec; [exact L|]. symmetry. exact K.
Qed.
Lemma class_aborts : forall ev, In (esr_ec (ev_esr ev)) [EC_INST_ABORT; EC_DATA_ABORT] -> In (class ev) [32; 36].
Proof. intros ev K. apply class_in; [repeat constructor|exact K]. Qed.
Lemma set_field : forall e k, N.land e SET_MASK = k -> field e 11 2 = k / 2 ^ 11.
Proof. intros e k <-. unfold SET_MASK. rewrite land_mask_field, N.div_mul by discriminate. reflexivity. Qed.

Lemma sync_takes : forall c h gh m d r loaded ev rp r1 x1 ld go r', Inv c gh (m_gr m) (m_vmids m) -> realm m (r_g_rd r) d -> r_ctx r = rd_ctx d -> realm_mode (r_pstate r) -> 0 < ipa_bits (r_ctx r) -> (forall ipa, protected (rd_ctx d) ipa -> exists q, page_ripas (page_at (m_gr m) (rd_ctx d) ipa) = Some q) ->
  ev_exc ev = ExcSync -> esr_ec (ev_esr ev) <> EC_SMC ->
  sync_out h gh r (ex_set_reason exit_zero RMI_EXIT_SYNC) loaded (ev_esr ev) (ev_far ev) (ev_hpfar ev) r1 x1 ld go ->
  alike r' r1 -> (if go then goes rp else exits rp) -> takes h m r loaded ev rp r'.
Proof.
  intros c h gh m d r loaded ev rp r1 x1 ld go r' I RD1 XE RM IB PH X NS H AL RP.
  assert (PE : protected (r_ctx r) (fault_ipa (ev_hpfar ev)) -> (page_empty gh (r_g_rd r) (r_ctx r) (hpfar_fipa (ev_hpfar ev)) <-> page_ripas (page_at (m_gr m) (r_ctx r) (fault_ipa (ev_hpfar ev))) = Some EMPTY)).
  { intro P. assert (Hi : fault_ipa (ev_hpfar ev) < 2 ^ ipa_bits (rd_ctx d)).
    { rewrite <- XE. unfold protected in P. eapply N.lt_le_trans; [exact P|]. apply N.pow_le_mono_r; [discriminate|lia]. }
    destruct (leaf_of _ _ _ _ I _ _ _ RD1 Hi) as (l0 & b & e & LF). destruct (view_leaf _ _ _ _ I _ _ _ _ _ _ RD1 Hi LF) as [VL _]. rewrite XE in *. rewrite VL. unfold page_empty. rewrite fipa_eq.
    assert (HE : page_ripas (view_e l0 e (fault_ipa (ev_hpfar ev))) = Some EMPTY <-> e_ripas e = EMPTY).
    { pose proof (PH (fault_ipa (ev_hpfar ev))) as (q & PQ); [exact P|]. rewrite VL in PQ. destruct e; cbn [view_e page_ripas e_ripas] in PQ |- *; try discriminate PQ; split; congruence. }
    rewrite HE. split.
    - intros (_ & l' & b' & e' & LF' & N). destruct (leaf_unique _ _ _ _ I _ _ _ _ _ _ _ _ LF LF') as (_ & _ & <-). exact N.
    - intro K. split; [exact P|]. eauto. }
  destruct H as [E|r1 E J|E M|E M M2 M3|E M M2 M3|r1 E F S J|E F S|r1 E F O J|E F L P|x1 E F L P P2 ->|E L|E].
  - apply tk_wait; [exact X|apply class_ec; [reflexivity|exact E]|apply alike_skips, AL|exact RP].
  - pose proof (alike_undefined _ _ _ AL J RM) as U. destruct E as [E|[(E & S)|(E & S)]]; apply class_ec in E; try reflexivity.
    + apply tk_hvc; assumption.
    + apply tk_no_simd; try assumption; unfold simd_allowed; rewrite E; [cbn; auto|]. rewrite S. intuition discriminate.
    + apply tk_no_simd; try assumption; unfold simd_allowed; rewrite E; [cbn; auto|]. destruct S as [S|S]; rewrite S; intuition discriminate.
  - destruct (id_seen_value h (sve_en (r_simd r)) _ M) as (crm & op2 & A & V). apply class_ec in E; [|reflexivity].
    eapply tk_id; try eassumption. apply alike_gets. unfold sysreg_rt in AL. rewrite extract_field in AL. exact AL.
  - apply class_ec in E; [|reflexivity]. apply tk_icc; try assumption; [apply icc_writes; assumption|apply alike_skips, AL].
  - apply class_ec in E; [|reflexivity].
    assert (N1 : forall crm op2, ~ accesses (ev_esr ev) 3 0 0 crm op2) by (intros crm op2 A; apply M; eapply id_access; exact A).
    assert (N2 : ~ icc (ev_esr ev)) by (intro A; apply icc_access in A; destruct A; contradiction).
    rewrite write_bit in AL. unfold sysreg_rt in AL. rewrite extract_field in AL. destruct (N.testbit (ev_esr ev) 0) eqn:W; cbn [negb andb] in AL.
    + apply tk_read; try assumption; [unfold writes; congruence|]. apply alike_gets. destruct (field (ev_esr ev) 5 5 =? 31); exact AL.
    + apply tk_write; try assumption. apply alike_skips, AL.
  - pose proof (class_aborts _ E) as K. apply tk_external; try assumption; [apply external_iff, F|]. left. split; [rewrite (set_field _ _ S); reflexivity|]. eapply alike_aborted; eassumption.
  - pose proof (class_aborts _ E) as K. apply tk_external; try assumption; [apply external_iff, F|]. right. split; [rewrite (set_field _ _ S); reflexivity|]. apply alike_stays, AL.
  - pose proof (class_aborts _ E) as K. apply tk_fault; try assumption; [intro Q; apply external_iff in Q; congruence| |eapply alike_aborted; eassumption].
    unfold own_fault. cbv zeta. destruct O as [O|[(O1 & O2)|O]].
    + left. rewrite fipa_eq in O. exact O.
    + right. left. split; [apply class_ec; [reflexivity|exact O1]|]. intro Q. apply par_iff in Q; [congruence|exact IB].
    + right. right. assert (P : protected (r_ctx r) (fault_ipa (ev_hpfar ev))) by (rewrite <- fipa_eq; apply O). split; [exact P|]. apply PE; assumption.
  - rewrite fipa_eq in L. apply class_ec in E; [|reflexivity].
    apply tk_report; try assumption; [rewrite E; cbn; auto|intro Q; apply external_iff in Q; congruence| |apply alike_stays, AL].
    unfold own_fault. cbv zeta. rewrite E. intros [Q|[(Q & _)|(Q & Q2)]]; [unfold rec_ipa_size in L; lia|discriminate Q|]. apply P, PE; assumption.
  - rewrite fipa_eq in L. apply class_ec in E; [|reflexivity].
    apply tk_report; try assumption; [rewrite E; cbn; auto|intro Q; apply external_iff in Q; congruence| |apply alike_stays, AL].
    unfold own_fault. cbv zeta. intros [Q|[(_ & Q)|(Q & Q2)]]; [unfold rec_ipa_size in L; lia|apply Q, par_iff; assumption|]. apply P2, PE; assumption.
  - apply tk_simd; try assumption.
    + unfold simd_allowed. destruct E as [E|([E|E] & S)]; apply class_ec in E; try reflexivity; auto.
    + apply alike_stays. destruct AL as (A1 & A2 & A3 & A4 & A5). split; [exact A1|]. split; [exact A2|]. split; [exact A3|]. split; [exact A4|].
      intros q N. rewrite A5 by exact N. apply sys_other. intros ->. apply N. cbn. auto.
  - apply tk_unknown; try assumption; [|apply alike_stays, AL]. intro K. apply E. apply (class_in ev [1; 22; 23; 24; 32; 36; 7; 25; 29]); [repeat constructor|exact K].
Qed.

Lemma exit_takes : forall c h m p ev fi tm m' rp ru r r', next c h m (OExit p ev fi tm) m' rp -> m_cpu m p = Some ru -> rec_is m (ru_rec ru) r -> rec_is m' (ru_rec ru) r' ->
  ~ (ev_exc ev = ExcSync /\ class ev = 23) -> takes h m r (ru_simd ru) ev rp r' /\ only m m' [ru_rec ru].
Proof.
  intros c h m p ev fi tm m' rp ru r r' H CP R R' NS. pose proof H as (RCH & _). destruct (rec_inv _ _ _ RCH) as [F _].
  destruct (next_good _ _ _ _ _ _ H) as (gh & gh' & labs & M & M' & GE & OE). cbn [op_eff] in OE.
  destruct OE as (-> & ru1 & r1 & d & out & at_ & simd & CP1 & RR & RD1 & RO & _ & AT & RP). assert (ru1 = ru) by congruence. subst ru1.
  assert (r1 = r) by (destruct RR, R; congruence). subst r1. pose proof (F _ _ CP) as FE. rewrite FE in RO.
  apply run_split in RO. destruct RO as (l0 & v1 & sd & go & r2 & n & EO & -> & CR & SS & -> & K).
  assert (r2 = r'). { unfold rec_is in R'. rewrite (geffs_last_rec _ _ _ _ _ _ _ _ _ _ _ _ GE (mv_inv _ _ _ M)) in R'. destruct R' as [_ R']. cbn [g_mem] in R'. congruence. } subst r2.
  assert (ON : on (m_cpu m) p = Some (ru_rec ru)) by (unfold on; rewrite CP; reflexivity).
  assert (EX : r_ctx r = rd_ctx d).
  { destruct (rec_realm _ _ _ (proj1 H) _ _ RR) as (d0 & R0 & E). destruct R0 as [_ Q1], RD1 as [_ Q2]. assert (d0 = d) by congruence. subst d0. apply E. }
  destruct (mv_pend _ _ _ M _ _ R) as [(RM & _) _]. pose proof (bits_pos _ _ _ _ _ RCH R) as IB.
  assert (AL : forall q, v_rec v1 = q -> alike r' q).
  { intros q <-. apply core_parts in CR. destruct CR as (C1 & C2 & C3 & C4 & C5 & C6 & _). unfold alike. repeat (split; [congruence|]). intros z N. apply SS. apply own_sys, N. }
  assert (ND : l0 = []).
  { destruct EO; try reflexivity. exfalso. apply NS. split; [assumption|]. apply class_ec; [reflexivity|assumption]. }
  assert (GR : if go then goes rp else exits rp).
  { destruct K as [(-> & -> & _)|(x & T & ->)]; [left; apply RP|]. unfold answer in RP. destruct go.
    - right. destruct (fi_wok fi); destruct RP as [-> _]; [right|left; reflexivity]. exists x. split; [reflexivity|].
      eapply report_told; [exact T|]. rewrite (exit_go _ _ _ _ _ _ _ _ _ _ _ EO eq_refl). apply report_eq; reflexivity.
    - destruct (fi_wok fi); destruct RP as [-> _]; [right; exists x; auto|left; reflexivity]. }
  assert (KL : forall v, core (v_rec (keep_last ev v)) = core (v_rec (keep_last ev v))) by reflexivity. clear KL.
  split.
  - remember (v1, sd, go) as o eqn:Eo. 
    assert (T3 : forall (A B C : Type) (a a' : A) (b b' : B) (q q' : C), (a, b, q) = (a', b', q') -> a = a' /\ b = b' /\ q = q') by (intros A B C ? ? ? ? ? ? E; split; [congruence|split; congruence]).
    assert (LA : forall q w1 w2 w3, alike r' (set_last q w1 w2 w3) -> alike r' q) by (intros q w1 w2 w3 A; exact A).
    destruct EO as [E|E|E|r2 E Hr|r2 x2 sd2 go2 Hx He Hs|labs out1 Hx He Hs Lv]; apply T3 in Eo; destruct Eo as (Ev & Es & Eg); subst go.
    + apply tk_other; [congruence|apply alike_stays, AL; rewrite <- Ev; reflexivity|exact GR].
    + apply tk_other; [congruence|apply alike_stays, AL; rewrite <- Ev; reflexivity|exact GR].
    + apply tk_other; [congruence|apply alike_stays, AL; rewrite <- Ev; reflexivity|exact GR].
    + apply tk_other; [congruence| |exact GR]. apply alike_stays. specialize (AL _ eq_refl). rewrite <- Ev in AL. apply LA in AL. subst r2. destruct (_ || _) in AL; exact AL.
    + eapply sync_takes; try eassumption; [exact (mv_inv _ _ _ M)|intros ipa; eapply page_half; eassumption|].
      specialize (AL _ eq_refl). rewrite <- Ev in AL. destruct go2; [exact AL|]. apply LA in AL. exact AL.
    + exfalso. apply NS. split; [assumption|]. apply class_ec; [reflexivity|assumption].
  - subst l0. intros z N. cbn [app] in GE. inversion GE; subst. match goal with X : geff _ _ _ _ _ _ _ _ |- _ => inversion X; subst end.
    match goal with X : geffs _ _ _ _ [] _ _ _ |- _ => inversion X; subst end.
    match goal with X : forall _, m_gr m' _ = _ |- _ => rewrite X end. 
    match goal with X : forall y, y <> _ -> _ y = _ |- _ => apply X end. intros ->. apply N. left. reflexivity.
Qed.

(** ** Interrupts and timers *)
Definition clock (r : recd) := (r_gic r, r_pmu_enabled r, (r_sys r CNTV_CTL_EL0, r_sys r CNTV_CVAL_EL0, r_sys r CNTP_CTL_EL0, r_sys r CNTP_CVAL_EL0)).

Lemma abort_clock : forall r esr far f r', inject_sync_idabort r esr far f = Some r' -> clock r' = clock r.
Proof.
  intros r esr far f r' H. unfold inject_sync_idabort in H. destruct (calc_esr_idabort _ _ _); [|discriminate]. destruct (calc_vector_entry _ _ _); [|discriminate]. injection H as <-. reflexivity.
Qed.
Lemma undef_clock : forall r r', realm_inject_undef_abort r = Some r' -> clock r' = clock r.
Proof. intros r r' H. unfold realm_inject_undef_abort in H. destruct (calc_vector_entry _ _ _); [|discriminate]. injection H as <-. reflexivity. Qed.

Lemma exit_clock : forall c h gh G d ev v simd labs v1 simd' go, exit_out c h gh G d ev v simd labs (v1, simd', go) -> clock (v_rec v1) = clock (v_rec v).
Proof.
  intros c h gh G d ev v simd labs v1 simd' go H. remember (v1, simd', go) as o eqn:Eo.
  assert (T3 : forall (A B C : Type) (a a' : A) (b b' : B) (q q' : C), (a, b, q) = (a', b', q') -> a = a' /\ b = b' /\ q = q') by (intros A B C ? ? ? ? ? ? E; split; [congruence|split; congruence]).
  destruct H as [E|E|E|r2 E Hr|r2 x2 sd2 go2 Hx He Hs|labs out1 Hx He Hs Lv]; apply T3 in Eo; destruct Eo as (<- & _ & _).
  - reflexivity.
  - reflexivity.
  - reflexivity.
  - subst r2. destruct (_ || _); reflexivity.
  - assert (K : clock r2 = clock (v_rec v)); [|destruct go2; exact K].
    destruct Hs; try reflexivity; try (eapply abort_clock; eassumption); try (eapply undef_clock; eassumption).
    + destruct (_ =? 31); reflexivity.
    + destruct (_ && _); reflexivity.
  - assert (K : clock (v_rec (fst out1)) = clock (v_rec v)) by (destruct Hs; reflexivity).
    assert (K2 : clock (v_rec (fst (rsi_result out1))) = clock (v_rec (fst out1))) by (unfold rsi_result; cbv zeta; destruct (ra_abort _), (ra_update _); reflexivity).
    rewrite <- K, <- K2. destruct (snd (rsi_result out1)); reflexivity.
Qed.

Lemma asserted_signals : forall w, timer_asserted w = signals w.
Proof.
  intro w. unfold timer_asserted, signals. change 7 with (N.ones 3). rewrite N.land_ones. change 5 with (N.lor 1 4).
  assert (B : forall k, k < 3 -> N.testbit w k = N.testbit (w mod 2 ^ 3) k) by (intros k L; rewrite N.mod_pow2_bits_low by exact L; reflexivity).
  rewrite !B by reflexivity. assert (L : w mod 2 ^ 3 < 8) by (apply N.mod_lt; discriminate). generalize dependent (w mod 2 ^ 3). clear. intros n _ L.
  assert (K : In n [0; 1; 2; 3; 4; 5; 6; 7]) by (cbn [In]; lia). cbn [In] in K. repeat (destruct K as [<-|K]; [reflexivity|]). contradiction.
Qed.

Lemma mask_bit : forall w k b n, N.testbit (set_mask w (2 ^ k) b) n = if n =? k then b else N.testbit w n.
Proof.
  intros w k b n. unfold set_mask. destruct b; [rewrite N.lor_spec|rewrite N.ldiff_spec]; rewrite N.pow2_bits_eqb, (N.eqb_sym k n); destruct (n =? k); cbn [negb];
    rewrite ?orb_true_r, ?orb_false_r, ?andb_true_r, ?andb_false_r; reflexivity.
Qed.
Lemma eoi_bits : forall b, N.testbit ICH_HCR_EL2_EOI_COUNT_MASK b = eoi_count b.
Proof.
  intro b. assert (E : ICH_HCR_EL2_EOI_COUNT_MASK = MASK 5 27) by reflexivity. rewrite E, testbit_mask. unfold eoi_count. apply Bool.eq_iff_eq_true. rewrite !andb_true_iff, ?N.leb_le, ?N.ltb_lt. lia.
Qed.
Lemma host_bits : forall b, N.testbit ICH_HCR_EL2_NS_MASK b = host_hcr b.
Proof.
  apply (const_bits _ _ 64); [vm_compute; reflexivity| |vm_compute; reflexivity]. intros b B. unfold host_hcr. cbn [existsb]. change (N.of_nat 64) with 64 in B.
  repeat match goal with |- (?x || ?y) = false => apply orb_false_iff; split end; try reflexivity; apply N.eqb_neq; intros ->; apply B; reflexivity.
Qed.

Lemma head_known : forall tm v, snd (loop_head tm v) = true -> timers_known tm (v_rec v) (v_rec (fst (loop_head tm v))) /\ r_gic (v_rec (fst (loop_head tm v))) = r_gic (v_rec v).
Proof.
  intros tm v H. unfold loop_head in *. remember (check_pending_timers (v_rec v) tm) as o eqn:Eo. destruct (snd o) eqn:E; [discriminate H|]. cbn [fst v_rec v_set_rec] in *.
  rewrite Eo in E. unfold check_pending_timers in E. cbn [snd] in E. apply orb_false_iff in E. destruct E as [E1 E2]. apply Bool.xorb_eq in E1, E2. rewrite !asserted_signals in E1, E2.
  assert (A : forall q, r_sys (activate_events (fst o)) q = r_sys (fst o) q) by (intro q; unfold activate_events; destruct (r_serror_inject _); reflexivity).
  assert (A2 : r_gic (activate_events (fst o)) = r_gic (fst o)) by (unfold activate_events; destruct (r_serror_inject _); reflexivity).
  split; [|rewrite A2, Eo; reflexivity]. unfold timers_known. rewrite !A. split; [exact E1|]. split; [exact E2|].
  assert (Z : forall q, In q [CNTV_CTL_EL0; CNTV_CVAL_EL0; CNTP_CTL_EL0; CNTP_CVAL_EL0] -> r_sys (activate_events (fst o)) q = r_sys (v_rec v) q).
  { intros q Q. rewrite A, Eo. cbn [In] in Q. repeat (destruct Q as [<-|Q]; [reflexivity|]). contradiction. }
  assert (Z2 : r_sys (fst o) CNTHCTL_EL2 = set_mask (set_mask (r_sys (v_rec v) CNTHCTL_EL2) CNTHCTL_CNTVMASK (timer_asserted (tm_vctl tm))) CNTHCTL_CNTPMASK (timer_asserted (tm_pctl tm))) by (rewrite Eo; reflexivity).
  rewrite Z2.  unfold CNTHCTL_CNTVMASK, CNTHCTL_CNTPMASK. rewrite !mask_bit, !asserted_signals. cbn [N.eqb Pos.eqb].
  split; [reflexivity|]. split; [reflexivity|]. exact Z.
Qed.
Lemma head_clock : forall tm v, clock (v_rec (fst (loop_head tm v))) = clock (v_rec v).
Proof. intros tm v. unfold loop_head. destruct (snd (check_pending_timers _ _)); cbn [fst v_rec v_set_rec]; [reflexivity|]. unfold activate_events. destruct (r_serror_inject _); reflexivity. Qed.

Lemma end_kept : forall h fi v simd, interrupts_kept h fi (r_gic (v_rec v)) (v_rec (run_end (h_gic h) fi (v, simd))).
Proof.
  intros h fi v simd. set (r1 := if simd then set_sysreg (v_rec v) CPTR_EL2 (simd_disable (r_sys (v_rec v) CPTR_EL2)) else v_rec v).
  assert (G : r_gic r1 = r_gic (v_rec v)) by (unfold r1; destruct simd; reflexivity).
  unfold interrupts_kept. cbv zeta.
  change (r_gic (v_rec (run_end (h_gic h) fi (v, simd)))) with (gic_save_state (h_gic h) (r_gic r1) (fi_gic fi)). rewrite G.
  split; [intro i; split; reflexivity|]. split; [reflexivity|]. split; [intros i L; cbn [gic_lr gic_save_state]; apply N.leb_le in L; rewrite L; reflexivity|].
  split. { intro b. cbn [gic_hcr gic_save_state]. rewrite N.lor_spec, N.ldiff_spec, N.land_spec, eoi_bits. destruct (eoi_count b); cbn [negb]; rewrite ?andb_false_r, ?andb_true_r, ?orb_false_r; reflexivity. }
  repeat split.
Qed.
Lemma sub_add : forall a b, (sub64 a b + b) mod 2 ^ 64 = a mod 2 ^ 64.
Proof.
  intros a b. unfold sub64, wrap64. rewrite N.add_mod_idemp_l by discriminate.
  assert (L : b mod 2 ^ 64 < 2 ^ 64) by (apply N.mod_lt; discriminate).
  rewrite <- (N.add_mod_idemp_r _ b) by discriminate. replace (a + (2 ^ 64 - b mod 2 ^ 64) + b mod 2 ^ 64) with (a + 1 * 2 ^ 64) by lia. apply N.mod_add. discriminate.
Qed.
Lemma end_tells : forall h fi v simd, (forall i, ex_gicv3_lrs (v_exit v) i = 0) -> ex_pmu_ovf (v_exit v) = 0 ->
  interrupts_told h fi (v_rec (run_end (h_gic h) fi (v, simd))) (v_exit (run_end (h_gic h) fi (v, simd))).
Proof.
  intros h fi v simd L0 P0. set (r1 := if simd then set_sysreg (v_rec v) CPTR_EL2 (simd_disable (r_sys (v_rec v) CPTR_EL2)) else v_rec v).
  unfold interrupts_told. cbv zeta. unfold run_end. cbv zeta. cbn [fst snd v_rec v_exit]. fold r1. unfold save_realm_state. cbv zeta. cbn [fst snd].
  assert (PE : forall q, r_pmu_enabled (set_gic q (r_gic q)) = r_pmu_enabled q) by reflexivity.
  set (x1 := report_timer_state r1 (fi_tm fi) (v_exit v)).
  assert (E1 : forall (b : bool) y, (if b then ex_set_pmu x1 (fi_ovf fi) else x1) = y -> ex_gicv3_lrs y = ex_gicv3_lrs (v_exit v) /\ 
     (ex_cntp_ctl y, ex_cntp_cval y, ex_cntv_ctl y, ex_cntv_cval y) = (ex_cntp_ctl x1, ex_cntp_cval x1, ex_cntv_ctl x1, ex_cntv_cval x1) /\ ex_pmu_ovf y = if b then fi_ovf fi else 0).
  { intros b y <-. destruct b; (split; [reflexivity|]); (split; [reflexivity|]); [reflexivity|exact P0]. }
  match goal with |- context[gic_copy_state_to_rec_exit _ _ ?y] => destruct (E1 _ y eq_refl) as (Y1 & Y2 & Y3); generalize dependent y end. intros y Y1 Y2 Y3. injection Y2 as Y4 Y5 Y6 Y7.
  unfold gic_copy_state_to_rec_exit.
  split. { intro i. cbn [ex_gicv3_lrs ex_set_gic gic_lr r_gic set_gic gic_save_state]. destruct (i <=? gf_nr_lrs (h_gic h)); [reflexivity|]. rewrite Y1. apply L0. }
  split. { intro b. cbn [ex_gicv3_hcr ex_set_gic]. rewrite N.land_spec, N.lor_spec, eoi_bits, host_bits, (orb_comm (eoi_count b)), andb_comm. reflexivity. }
  split; [reflexivity|]. split; [reflexivity|].
  cbn [ex_cntp_ctl ex_cntp_cval ex_cntv_ctl ex_cntv_cval ex_pmu_ovf ex_set_gic]. rewrite Y3, Y4, Y5, Y6, Y7. subst x1. cbn [report_timer_state ex_cntp_ctl ex_cntp_cval ex_cntv_ctl ex_cntv_cval ex_set_timers].
  split; [reflexivity|]. split; [apply sub_add|]. split; [reflexivity|]. split; [apply sub_add|]. reflexivity.
Qed.

Definition bare (x : rec_exit) := (ex_gicv3_lrs x, ex_pmu_ovf x).
Lemma exit_bare : forall c h gh G d ev v simd labs v1 simd' go, exit_out c h gh G d ev v simd labs (v1, simd', go) -> bare (v_exit v1) = bare (v_exit v).
Proof.
  intros c h gh G d ev v simd labs v1 simd' go H. remember (v1, simd', go) as o eqn:Eo.
  assert (T3 : forall (A B C : Type) (a a' : A) (b b' : B) (q q' : C), (a, b, q) = (a', b', q') -> a = a' /\ b = b' /\ q = q') by (intros A B C ? ? ? ? ? ? E; split; [congruence|split; congruence]).
  destruct H as [E|E|E|r2 E Hr|r2 x2 sd2 go2 Hx He Hs|labs out1 Hx He Hs Lv]; apply T3 in Eo; destruct Eo as (<- & _ & _); try reflexivity.
  - assert (K : bare x2 = bare (v_exit v)); [|destruct go2; exact K]. destruct Hs; try reflexivity.
    + unfold dabt_exit. cbv zeta. repeat match goal with |- context[if ?b then _ else _] => destruct b end; reflexivity.
    + subst x'. destruct (_ =? _); reflexivity.
  - assert (K : bare (v_exit (fst out1)) = bare (v_exit v)) by (destruct Hs; reflexivity).
    assert (K2 : bare (v_exit (fst (rsi_result out1))) = bare (v_exit (fst out1))) by (unfold rsi_result; cbv zeta; destruct (ra_abort _), (ra_update _); reflexivity).
    rewrite <- K, <- K2. destruct (snd (rsi_result out1)); reflexivity.
Qed.

Lemma exit_times : forall c h m p ev fi tm m' rp ru r r', next c h m (OExit p ev fi tm) m' rp -> m_cpu m p = Some ru -> rec_is m (ru_rec ru) r -> rec_is m' (ru_rec ru) r' ->
  (rp = Entered -> r_gic r' = r_gic r /\ timers_known tm r r') /\
  (forall ret x, rp = Exited ret x -> interrupts_kept h fi (r_gic r) r' /\ match x with Some x => interrupts_told h fi r' x | None => True end).
Proof.
  intros c h m p ev fi tm m' rp ru r r' H CP RR RR'. destruct (rec_inv _ _ _ (proj1 H)) as [F _].
  destruct (next_good _ _ _ _ _ _ H) as (gh & gh' & labs & M & M' & GE & OE). cbn [op_eff] in OE.
  destruct OE as (-> & ru0 & r0 & d & out & at_ & simd & CP0 & RR0 & R & RO & _ & AT & RP).
  assert (ru0 = ru) by congruence. subst ru0. assert (r0 = r) by (destruct RR, RR0; congruence). subst r0. rewrite (F _ _ CP) in RO.
  assert (LR : forall pre q q' n, labs = pre ++ [LRec (ru_rec ru) q q' n] -> r' = q').
  { intros pre q q' n ->. destruct RR' as [_ M2]. rewrite (geffs_last_rec _ _ _ _ _ _ _ _ _ _ _ _ GE (mv_inv _ _ _ M)) in M2. cbn [g_mem] in M2. congruence. }
  assert (FIN : forall labs0 v1 sd go v2 sd2 v', exit_out c h gh (m_gr m) d ev (mkV r exit_zero (m_att m (ru_rec ru))) (ru_simd ru) labs0 (v1, sd, go) ->
     clock (v_rec v2) = clock (v_rec v1) -> bare (v_exit v2) = bare (v_exit v1) -> v' = run_end (h_gic h) fi (v2, sd2) -> r' = v_rec v' ->
     interrupts_kept h fi (r_gic r) r' /\ interrupts_told h fi r' (v_exit v')).
  { intros labs0 v1 sd go v2 sd2 v' EO C B -> ->. pose proof (exit_clock _ _ _ _ _ _ _ _ _ _ _ _ EO) as C1. pose proof (exit_bare _ _ _ _ _ _ _ _ _ _ _ _ EO) as B1. 
    rewrite C1 in C. rewrite B1 in B. cbn [v_rec v_exit] in C, B. unfold clock in C. injection C as C _ _ _ _ _. unfold bare in B. injection B as B2 B3.
    split; [rewrite <- C; apply end_kept|]. apply end_tells; [intro i; rewrite B2; reflexivity|rewrite B3; reflexivity]. }
  assert (AN : forall x, (match answer (fi_wok fi) x with EReturn ret x0 => rp = Exited ret x0 /\ m_cpu m' = upd (m_cpu m) p None | ERun x0 => rp = Entered /\ m_cpu m' = upd (m_cpu m) p (Some (mkRun (ru_rec ru) x0 simd)) end) ->
     rp <> Entered /\ forall ret y, rp = Exited ret y -> y = Some x \/ y = None).
  { intros x K. unfold answer in K. destruct (fi_wok fi); destruct K as [-> _]; (split; [discriminate|]); intros ret y E; injection E as _ <-; auto. }
  remember (out, at_, simd) as o eqn:Eo. destruct RO as [l0 v1 sd l EO El Sl|l0 v1 sd l v' EO El Sl Ev|l0 v1 sd v' EO Ev]; injection Eo as <- <- <-.
  - destruct RP as [-> _]. split; [|discriminate]. intros _. rewrite (LR _ _ _ _ eq_refl). subst l. destruct (head_known _ _ Sl) as [K1 K2].
    pose proof (exit_clock _ _ _ _ _ _ _ _ _ _ _ _ EO) as C1. cbn [v_rec] in C1. unfold clock in C1. injection C1 as C1 _ C3 C4 C5 C6. split; [congruence|].
    destruct K1 as (T1 & T2 & T3 & T4 & T5). unfold timers_known. rewrite <- C3, <- C5. do 4 (split; [assumption|]).
    intros q Q. rewrite (T5 _ Q). cbn [In] in Q. repeat (destruct Q as [<-|Q]; [assumption|]). contradiction.
  - destruct (AN _ RP) as [N1 N2]. split; [intro E; contradiction|]. intros ret x E. 
    destruct (FIN _ _ _ _ (fst l) sd v' EO) as [A B]; [subst l; apply head_clock|subst l; unfold loop_head; destruct (snd (check_pending_timers _ _)); reflexivity|exact Ev|apply (LR _ _ _ _ eq_refl)|]. split; [exact A|].
    destruct (N2 _ _ E) as [-> | ->]; [exact B|exact Logic.I].
  - destruct (AN _ RP) as [N1 N2]. split; [intro E; contradiction|]. intros ret x E. 
    destruct (FIN _ _ _ _ v1 sd v' EO eq_refl eq_refl Ev (LR _ _ _ _ eq_refl)) as [A B]. split; [exact A|].
    destruct (N2 _ _ E) as [-> | ->]; [exact B|exact Logic.I].
Qed.

Lemma entry_clock : forall f r e r6, entry_rec f r e = Some r6 -> clock r6 = clock (set_gic r (gic_copy_state_from_rec_entry f (r_gic r) e)).
Proof.
  intros f r e r6 H. unfold entry_rec in H. cbv zeta in H. set (r1 := set_gic r _) in *. clearbody r1.
  destruct (complete_sea_insertion r1 e) as [[r2|]|] eqn:E1; try discriminate. destruct (complete_mmio_emulation r2 e) as [r3|] eqn:E2; [|discriminate].
  injection H as <-. 
  assert (K1 : clock r2 = clock r1).
  { unfold complete_sea_insertion in E1. repeat match type of E1 with context[if ?b then _ else _] => destruct b end; try discriminate; try (injection E1 as <-; reflexivity).
    destruct (inject_sync_idabort _ _ _ _) eqn:J; [|discriminate]. injection E1 as <-. eapply abort_clock, J. }
  assert (K2 : clock r3 = clock r2).
  { unfold complete_mmio_emulation in E2. cbv zeta in E2. repeat match type of E2 with context[if ?b then _ else _] => destruct b end; try discriminate; injection E2 as <-; reflexivity. }
  rewrite <- K1, <- K2. unfold complete_sysreg_emulation, complete_set_ripas. cbv zeta. repeat match goal with |- context[if ?b then _ else _] => destruct b end; reflexivity.
Qed.
Lemma given_gic : forall h r e, interrupts_given h e (r_gic r) (gic_copy_state_from_rec_entry (h_gic h) (r_gic r) e).
Proof.
  intros h r e. unfold interrupts_given, gic_copy_state_from_rec_entry. cbn [gic_lr gic_hcr gic_ap0r gic_ap1r gic_vmcr].
  split; [reflexivity|]. split; [|repeat split].
  intro b. rewrite N.lor_spec, N.ldiff_spec, N.land_spec, host_bits. destruct (host_hcr b); cbn [negb]; rewrite ?andb_true_r, ?andb_false_r, ?orb_false_r, ?orb_false_l; reflexivity.
Qed.

Lemma enter_times : forall c h m p a ra e fi tm m' rp r r', next c h m (OEnter p a ra (Some e) fi tm) m' rp -> rec_is m a r -> rec_is m' a r' ->
  (rp = Entered -> interrupts_given h e (r_gic r) (r_gic r') /\ timers_known tm r r') /\
  (forall x, rp = Exited RMI_SUCCESS (Some x) -> ex_reason x = RMI_EXIT_IRQ -> exists g, interrupts_given h e (r_gic r) g /\ interrupts_kept h fi g r' /\ interrupts_told h fi r' x).
Proof.
  intros c h m p a ra e fi tm m' rp r r' H [S1 M1] [S2 M2].
  destruct (next_good _ _ _ _ _ _ H) as (gh & gh' & labs & M & M' & GE & OE). cbn [op_eff] in OE. destruct OE as (CP & -> & out & EO & _ & _ & RP).
  assert (L : forall pre r0 r1 n, labs = pre ++ [LRec a r0 r1 n] -> r' = r1).
  { intros pre r0 r1 n ->. rewrite (geffs_last_rec _ _ _ _ _ _ _ _ _ _ _ _ GE (mv_inv _ _ _ M)) in M2. cbn [g_mem] in M2. congruence. }
  assert (ST : forall r6 hl r7 at_, entry_rec (h_gic h) r e = Some r6 -> hc_out gh (m_gr m) (r_g_rd r) (r_ctx r) r6 e hl (inl r7) ->
     clock (start_rec r7 e) = clock (set_gic r (gic_copy_state_from_rec_entry (h_gic h) (r_gic r) e)) /\ bare (v_exit (mkV (start_rec r7 e) exit_zero at_)) = bare exit_zero).
  { intros r6 hl r7 at_ E1 HC. split; [|reflexivity]. rewrite <- (entry_clock _ _ _ _ E1). destruct HC as [(_ & _ & E)|[(_ & l & b & pa & g & f & _ & _ & _ & _ & _ & E)|(_ & _ & l & b & z & _ & _ & _ & E)]].
    - injection E as ->. reflexivity.
    - injection E as ->. reflexivity.
    - destruct (e_ripas z); try discriminate; injection E as ->; reflexivity. }
  inversion EO; subst.
  - destruct RP as [-> _]. split; [discriminate|]. intros x E. discriminate E.
  - destruct RP as [-> _]. split; [discriminate|]. intros x E. discriminate E.
  - assert (NE : rp <> Entered) by (unfold answer in RP; destruct (fi_wok fi); destruct RP as [-> _]; discriminate). split; [intro; contradiction|].
    intros x E X. unfold answer in RP. destruct (fi_wok fi); destruct RP as [RP _]; rewrite RP in E; [injection E as <-; discriminate X|discriminate E].
  - match goal with E : Some _ = Some _ |- _ => injection E as <- end. match goal with R : is_rec _ _ ?q |- _ => assert (q = r) by (destruct R as [_ R]; congruence); subst q end.
    match goal with E1 : entry_rec _ _ _ = Some _, HC : hc_out _ _ _ _ _ _ _ _ |- _ => destruct (ST _ _ _ (m_att m a) E1 HC) as [C _] end.
    destruct RP as [-> _]. split; [|discriminate]. intros _.
    match goal with SL : snd (loop_head _ _) = true |- _ => destruct (head_known _ _ SL) as [K1 K2] end. cbn [v_rec] in K1, K2.
    match goal with |- context[LRec] => idtac | _ => idtac end.
    unfold clock in C. injection C as C1 _ C3 C4 C5 C6.
    erewrite (L (_ :: hl)) by reflexivity. rewrite K2. change (r_gic (start_rec r7 e)) with (r_gic r7). rewrite C1. split; [apply given_gic|].
    destruct K1 as (T1 & T2 & T3 & T4 & T5). unfold timers_known. change (r_sys (set_gic r ?g) ?q) with (r_sys r q) in *. rewrite <- C3, <- C5. do 4 (split; [assumption|]).
    intros q Q. rewrite (T5 _ Q). cbn [In] in Q. repeat (destruct Q as [<-|Q]; [assumption|]). contradiction.
  - match goal with E : Some _ = Some _ |- _ => injection E as <- end. match goal with R : is_rec _ _ ?q |- _ => assert (q = r) by (destruct R as [_ R]; congruence); subst q end.
    match goal with E1 : entry_rec _ _ _ = Some _, HC : hc_out _ _ _ _ _ _ _ _ |- _ => destruct (ST _ _ _ (m_att m a) E1 HC) as [C _] end.
    assert (NE : rp <> Entered) by (unfold answer in RP; destruct (fi_wok fi); destruct RP as [-> _]; discriminate). split; [intro; contradiction|].
    intros x E X. unfold answer in RP. destruct (fi_wok fi); destruct RP as [RP _]; rewrite RP in E; [injection E as <-|discriminate E].
    unfold clock in C. injection C as C1 _ _ _ _ _. exists (gic_copy_state_from_rec_entry (h_gic h) (r_gic r) e). split; [apply given_gic|].
    erewrite (L (_ :: hl)) by reflexivity. split.
    + match goal with |- interrupts_kept _ _ ?g (v_rec (run_end _ _ (fst ?l, _))) => assert (EG : r_gic (v_rec (fst l)) = g) end.
      { match goal with |- r_gic (v_rec (fst (loop_head ?tm ?v))) = _ => pose proof (head_clock tm v) as HC2 end. unfold clock in HC2. injection HC2 as HC2 _ _ _ _ _. rewrite HC2. exact C1. }
      rewrite <- EG. apply end_kept.
    + apply end_tells; unfold loop_head; destruct (snd (check_pending_timers _ _)); reflexivity.
Qed.
