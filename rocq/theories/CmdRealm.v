(** REALM_CREATE, REALM_ACTIVATE and REALM_DESTROY *)
From Coq Require Import NArith ZArith List Bool Lia ZifyBool ZifyN.
From Verif Require Import Bits S2tte S2tteFacts State Granule Wp RecFields Measure RmiGranule RmiRtt RmiRealm Psci RmiRec
  Inv InvTree InvStep InvStep2 InvStep3 Effects CmdLib CmdRtt CmdFold CmdRtt2 CmdNs CmdData CmdList.
Import ListNotations.
Local Open Scope N_scope.

Lemma min_sl_bound : forall b, (-1 <= min_starting_level b <= 0)%Z.
Proof. intros []; vm_compute; split; discriminate. Qed.

(** The translation parameters REALM_CREATE accepts describe a regime of the
    architecture *)
Lemma params_ctx_ok : forall c p, realm_params_valid c p = true ->
  ctx_ok (mkCtx (p_s2sz p) (p_rtt_level_start p) (p_rtt_num_start p) (p_rtt_base p) (p_vmid p) (is_lpa2_requested p)).
Proof.
  intros c p H. unfold realm_params_valid in H. rewrite !andb_true_iff in H.
  destruct H as (((H & Hv) & Hn) & _). clear H.
  unfold validate_ipa_bits_and_sl in Hv.
  destruct ((p_s2sz p <? 32) || ((if is_lpa2_requested p then 52 else 48) <? p_s2sz p)) eqn:H1; [discriminate|].
  destruct ((p_rtt_level_start p <? min_starting_level (is_lpa2_requested p))%Z || (S2TT_PAGE_LEVEL <? p_rtt_level_start p)%Z) eqn:H2; [discriminate|].
  destruct ((p_rtt_level_start p =? 0)%Z && (c_pa_width c <? 44)); [discriminate|].
  unfold s2_inconsistent_sl in Hv. cbv zeta in Hv.
  set (sl := p_rtt_level_start p) in *. set (bits := p_s2sz p) in *. set (lp := is_lpa2_requested p) in *.
  change S2TT_PAGE_LEVEL with 3%Z in H2.
  pose proof (min_sl_bound lp) as Hmin.
  unfold ctx_ok. cbn [enable_lpa2 s2_sl ipa_bits num_root_rtts]. fold sl bits lp.
  change S2TTE_STRIDE_LM1 with 4 in Hv. change S2TTE_STRIDE with 9 in Hv.
  assert (M : lvl_lsb sl + 1 = Z.to_N ((3 - sl) * 9 + 12 + 1)) by (unfold lvl_lsb; lia).
  rewrite <- M in Hv.
  set (mx := if ((0 <? sl)%Z || ((sl =? 0)%Z && lp)) then _ else _) in Hv.
  assert (HM : mx <= lvl_lsb sl + 13).
  { unfold mx. destruct ((0 <? sl)%Z || ((sl =? 0)%Z && lp)), ((sl =? -1)%Z && lp); lia. }
  assert (bits <= mx /\ lvl_lsb sl + 1 <= bits) as (B1 & B2) by lia.
  split.
  { split; [lia|]. destruct (Z.eq_dec sl 3) as [E3|]; [|lia]. exfalso. rewrite E3 in HM. change (lvl_lsb 3) with 12 in HM. lia. }
  split; [lia|]. split; [unfold oa_bits, S2TTE_OA_BITS_LPA2, S2TTE_OA_BITS; destruct lp; lia|]. split; [lia|]. lia.
Qed.

(** The loop over one table *)
Lemma init_root_words_spec : forall fuel par M step t i m, 0 < step -> m < M ->
  exists k, k = N.min (N.of_nat fuel) (M - m) /\
  exists t', init_root_words fuel par (M * step) step t i (m * step) = (t', (m + k) * step, m + k =? M) /\
  forall j, t' j = if (i <=? j) && (j <? i + k) then
                     (if (m + (j - i)) * step <? par then s2tte_create_unassigned_empty else s2tte_create_unassigned_ns)
                   else t j.
Proof.
  induction fuel as [|fuel IH]; intros par M step t i m Hs Hm; cbn [init_root_words].
  - exists 0. split; [lia|]. exists t. rewrite N.add_0_r. split.
    + rewrite (proj2 (N.eqb_neq m M)) by lia. reflexivity.
    + intro j. assert ((i <=? j) && (j <? i + 0) = false) as -> by lia. reflexivity.
  - cbv zeta. replace (m * step + step) with ((m + 1) * step) by lia.
    destruct (N.eqb_spec ((m + 1) * step) (M * step)) as [E|E].
    + apply N.mul_cancel_r in E; [|lia]. exists 1. split; [lia|]. eexists. split.
      * rewrite (proj2 (N.eqb_eq (m + 1) M)) by assumption. reflexivity.
      * intro j. unfold upd. destruct (N.eqb_spec j i) as [->|].
        -- assert ((i <=? i) && (i <? i + 1) = true) as -> by lia. replace (m + (i - i)) with m by lia. reflexivity.
        -- assert ((i <=? j) && (j <? i + 1) = false) as -> by lia. reflexivity.
    + assert (m + 1 <> M) by (intro X; apply E; rewrite X; reflexivity).
      destruct (IH par M step (upd t i (if m * step <? par then s2tte_create_unassigned_empty else s2tte_create_unassigned_ns)) (i + 1) (m + 1) Hs ltac:(lia))
        as (k & Ek & t' & E1 & E2).
      exists (1 + k). split; [lia|]. exists t'. split.
      * rewrite E1. replace (m + 1 + k) with (m + (1 + k)) by lia. reflexivity.
      * intro j. rewrite E2. destruct (N.lt_trichotomy j i) as [Hj|[->|Hj]].
        -- assert ((i + 1 <=? j) && (j <? i + 1 + k) = false) as -> by lia.
           assert ((i <=? j) && (j <? i + (1 + k)) = false) as -> by lia. rewrite upd_other by lia. reflexivity.
        -- assert ((i + 1 <=? i) && (i <? i + 1 + k) = false) as -> by lia.
           assert ((i <=? i) && (i <? i + (1 + k)) = true) as -> by lia. rewrite upd_same. replace (m + (i - i)) with m by lia. reflexivity.
        -- replace ((i <=? j) && (j <? i + (1 + k))) with ((i + 1 <=? j) && (j <? i + 1 + k)) by lia.
           destruct ((i + 1 <=? j) && (j <? i + 1 + k)) eqn:B; [|rewrite upd_other by lia; reflexivity].
           replace (m + 1 + (j - (i + 1))) with (m + (j - i)) by lia. reflexivity.
Qed.

Section Roots.
Variable r : rdesc.
Let x := rd_ctx r.
Hypothesis X : ctx_ok x.
Let base := g_rtt x.
Let nr := num_root_rtts x.
Variables (L V : N -> bool) (T : list tlbe).

Definition root_words (k : N) (g : granule) : Prop :=
  exists f, g = mkG DELEGATED 0 (CW f) /\ words_ok (enable_lpa2 x) (s2_sl x) f (fun j => root_entry x (512 * k + j)).

Let per := if (s2_sl x =? S2TT_MIN_STARTING_LEVEL_LPA2)%Z then S2TTES_PER_S2TT_LM1 else S2TTES_PER_S2TT.

Lemma root_per : (per = 512 /\ (nr - 1) * 512 < ipan x (s2_sl x)) \/ (per = 16 /\ nr = 1 /\ ipan x (s2_sl x) <= 16).
Proof.
  unfold per. pose proof (ctx_sl _ X). destruct X as (H1 & H2 & H3 & H4 & H5).
  unfold nr. rewrite H5. unfold s2_num_root_rtts.
  replace (Z.to_N ((3 - s2_sl x) * 9 + 12 + 9)) with (lvl_lsb (s2_sl x) + 9) by (unfold lvl_lsb; lia).
  assert (EI : ipan x (s2_sl x) = 2 ^ (ipa_bits x - lvl_lsb (s2_sl x))).
  { unfold ipan, parn. rewrite <- N.pow_succ_r'. f_equal. lia. }
  rewrite EI. change S2TT_MIN_STARTING_LEVEL_LPA2 with (-1)%Z.
  change S2TTES_PER_S2TT_LM1 with 16. change S2TTES_PER_S2TT with 512.
  destruct (Z.eqb_spec (s2_sl x) (-1)) as [E|].
  - right. split; [reflexivity|]. rewrite E. change (lvl_lsb (-1)) with 48. pose proof (ctx_bits52 _ X).
    destruct (N.leb_spec (ipa_bits x) (48 + 9)); [|lia]. split; [reflexivity|]. change 16 with (2 ^ 4). apply pow2_le. lia.
  - left. split; [reflexivity|]. destruct (N.leb_spec (ipa_bits x) (lvl_lsb (s2_sl x) + 9)); [pose proof (pow2_pos (ipa_bits x - lvl_lsb (s2_sl x))); lia|].
    rewrite (pow2_split (ipa_bits x - lvl_lsb (s2_sl x)) 9) by lia. change (2 ^ 9) with 512.
    replace (ipa_bits x - lvl_lsb (s2_sl x) - 9) with (ipa_bits x - (lvl_lsb (s2_sl x) + 9)) by lia.
    pose proof (pow2_pos (ipa_bits x - (lvl_lsb (s2_sl x) + 9))). lia.
Qed.

Lemma wp_init_roots : forall n k (S : N -> bool) G (Q : _ -> state -> Prop),
  k + N.of_nat n = nr -> (1 <= n)%nat -> S SLOT_RTT = false ->
  (forall j, k <= j < nr -> G (base + j * 4096) = mkG DELEGATED 0 czero) ->
  (forall S' G', (forall z, S' z = S z) -> (forall j, k <= j < nr -> root_words j (G' (base + j * 4096))) ->
     (forall z, (forall j, k <= j < nr -> z <> base + j * 4096) -> G' z = G z) -> Q tt (mkS L S' G' V T)) ->
  wp False (init_roots n (N.to_nat per) (realm_par_size r) (realm_ipa_size r) (ms (s2_sl x)) (base + k * 4096) (512 * k * ms (s2_sl x)))
    (mkS L S G V T) Q.
Proof.
  induction n as [|n IH]; intros k S G Q Hk Hn HS HG HQ; [lia|].
  cbn [init_roots]. pose proof (ctx_sl _ X) as SL. pose proof (ctx_min _ X) as MIN. pose proof (ms_pos (s2_sl x)) as MP.
  apply wp_bind, wp_map_slot; [exact HS|].
  apply wp_bind. eapply wp_get_table; [rewrite HG by lia; reflexivity|]. cbv zeta.
  assert (EP : realm_par_size r = parn x (s2_sl x) * ms (s2_sl x)).
  { rewrite parn_ms by (assumption || lia). unfold realm_par_size, realm_ipa_size. fold x. rewrite N.shiftr_div_pow2.
    pose proof (ctx_lsb _ X 3 ltac:(lia)). rewrite (pow2_split (ipa_bits x) 1) by lia. rewrite N.div_mul by discriminate. reflexivity. }
  assert (EI : realm_ipa_size r = ipan x (s2_sl x) * ms (s2_sl x)).
  { rewrite ipan_ms by (assumption || lia). reflexivity. }
  rewrite EI.
  assert (Hlt : 512 * k < ipan x (s2_sl x)).
  { destruct root_per as [(P1 & P2)|(P1 & P2 & P3)]; [nia|]. assert (k = 0) as -> by lia.
    pose proof (pow2_pos (ipa_bits x - 1 - lvl_lsb (s2_sl x))). unfold ipan, parn. lia. }
  destruct (init_root_words_spec (N.to_nat per) (realm_par_size r) (ipan x (s2_sl x)) (ms (s2_sl x)) (fun _ => 0) 0 (512 * k) MP Hlt)
    as (kk & Ekk & t' & E1 & E2).
  rewrite E1. cbn [fst snd]. rewrite N2Nat.id in Ekk.
  apply wp_bind, wp_wr_mem. rewrite HG by lia. cbn [g_state g_ref]. apply wp_bind, wp_unmap_slot; [side|].
  assert (W : root_words k (mkG DELEGATED 0 (CW t'))).
  { exists t'. split; [reflexivity|]. intros j Hj. rewrite E2.
    replace (0 + kk) with kk by lia. replace (j - 0) with j by lia. rewrite EP. unfold root_entry.
    assert (Ec : ((512 * k + j) * ms (s2_sl x) <? parn x (s2_sl x) * ms (s2_sl x)) = (512 * k + j <? parn x (s2_sl x))).
    { apply eq_true_iff_eq. rewrite !N.ltb_lt. symmetry; apply N.mul_lt_mono_pos_r. exact MP. }
    rewrite Ec.
    assert (HP : parn x (s2_sl x) <= ipan x (s2_sl x)) by (unfold ipan; lia).
    destruct ((0 <=? j) && (j <? kk)) eqn:B.
    - destruct (N.ltb_spec (512 * k + j) (parn x (s2_sl x))); [reflexivity|].
      destruct (N.ltb_spec (512 * k + j) (ipan x (s2_sl x))); [reflexivity|lia].
    - assert (ipan x (s2_sl x) <= 512 * k + j).
      { destruct root_per as [(P1 & P2)|(P1 & P2 & P3)]; lia. }
      destruct (N.ltb_spec (512 * k + j) (parn x (s2_sl x))); [lia|].
      destruct (N.ltb_spec (512 * k + j) (ipan x (s2_sl x))); [lia|reflexivity]. }
  set (G1 := upd G (base + k * 4096) (mkG DELEGATED 0 (CW t'))).
  assert (S1 : forall z, upd (upd S SLOT_RTT true) SLOT_RTT false z = S z).
  { intro z. unfold upd. destruct (N.eqb_spec z SLOT_RTT) as [->|]; [symmetry; exact HS|reflexivity]. }
  destruct (N.eqb_spec (512 * k + kk) (ipan x (s2_sl x))) as [Ed|Ed].
  - assert (Hlast : k + 1 = nr).
    { destruct root_per as [(P1 & P2)|(P1 & P2 & P3)]; [|lia]. nia. }
    apply wp_ret. apply HQ; [exact S1| |].
    + intros j Hj. assert (j = k) as -> by lia. unfold G1. rewrite upd_same. exact W.
    + intros z Hz. unfold G1. apply upd_other. apply Hz. lia.
  - assert (Hkk : kk = 512 /\ 512 * (k + 1) < ipan x (s2_sl x)).
    { destruct root_per as [(P1 & P2)|(P1 & P2 & P3)]; [split; lia|]. assert (k = 0) by lia. lia. }
    destruct Hkk as [-> Hnx].
    pose proof (root_count _ X) as RC. fold nr in RC.
    replace (base + k * 4096 + GRANULE_SIZE) with (base + (k + 1) * 4096) by (change GRANULE_SIZE with 4096; lia).
    replace ((512 * k + 512) * ms (s2_sl x)) with (512 * (k + 1) * ms (s2_sl x)) by lia. rewrite <- EI.
    apply IH; [lia|lia|rewrite S1; exact HS| |].
    + intros j Hj. unfold G1. rewrite upd_other by lia. apply HG. lia.
    + intros S' G' HS' R' F'. apply HQ.
      * intro z. rewrite HS'. apply S1.
      * intros j Hj. destruct (N.eq_dec j k) as [->|]; [|apply R'; lia].
        rewrite F' by (intros; lia). unfold G1. rewrite upd_same. exact W.
      * intros z Hz. rewrite F' by (intros; apply Hz; lia). unfold G1. apply upd_other. apply Hz. lia.
Qed.
End Roots.

Section Cmd.
Variables (c : cfg) (gh : ghost) (G : N -> granule) (V : N -> bool).
Hypothesis C : cfg_ok c.
Hypothesis I : Inv c gh G V.
Variables (L S : N -> bool) (T : list tlbe).
Hypothesis HL : free L.
Hypothesis HS : free S.

Lemma wp_realm_activate : forall rd,
  wp False (smc_realm_activate c rd) (mkS L S G V T) (fun r s' =>
    cmd_post c gh G V T r
      ((r = RMI_ERROR_INPUT /\ ~ exists d, is_rd G rd d) \/ (r = RMI_ERROR_REALM /\ exists d, is_rd G rd d /\ rd_state d <> REALM_NEW))
      (fun gh' labs inv => inv = [] /\ exists d, is_rd G rd d /\ rd_state d = REALM_NEW /\
         labs = [LRd rd d (set_rd_state d REALM_ACTIVE)]) s').
Proof.
  intros rd. unfold smc_realm_activate. apply wp_bind, wp_find_lock; [apply HL|apply (inv_uok _ _ _ _ I)| |].
  2:{ intros L' HL' K. apply wp_ret. apply post_fail; try assumption; try discriminate; try reflexivity; [lk|].
      left. split; [reflexivity|]. intros (d & R). apply (no_rd _ _ _ _ I rd (fun _ => True) K). exists d. auto. }
  intros F Sr. cbn [negb]. apply wp_bind, wp_map_slot; [side|].
  destruct (rd_of_state _ _ _ _ I rd Sr) as (d & R & Ar).
  apply wp_bind. eapply wp_get_rd; [exact Ar|]. apply wp_bind.
  destruct (N.eqb_spec (rd_state d) REALM_NEW) as [Nw|Nw].
  - apply wp_bind, wp_put_rd. apply wp_ret. apply wp_bind, wp_unmap_slot; [side|].
    apply wp_bind, wp_granule_unlock; [side| |].
    { pose proof (inv_uok _ _ _ _ I rd) as U; unfold uok in *; updsimp; exact U. }
    apply wp_ret. eapply post_ok; [lk|lk| |instantiate (1 := []); reflexivity|].
    + eapply geffs_one, g_rd; [exact R| |updsimp; rewrite Sr; reflexivity|intros z nz; updsimp; reflexivity].
      pose proof (rd_state_ok _ _ _ _ I _ _ R) as (K1 & K2 & K3 & K4).
      split; [reflexivity|]. split; [|split; [intros rc H; exact H|split; [rewrite Nw; apply N.le_0_l|reflexivity]]].
      split; [exact K1|]. split; [vm_compute; discriminate|]. split; assumption.
    + split; [reflexivity|]. exists d. auto.
  - apply wp_ret. apply wp_bind, wp_unmap_slot; [side|].
    apply wp_bind, wp_granule_unlock; [side|apply (inv_uok _ _ _ _ I)|]. apply wp_ret.
    apply post_fail; try assumption; try discriminate; try reflexivity; try lk. right. split; [reflexivity|]. exists d. auto.
Qed.

Lemma roots_rtt : forall rd d g, is_rd G rd d -> In g (root_list (g_rtt (rd_ctx d)) (num_root_rtts (rd_ctx d))) ->
  g_state (G g) = RTT /\ g <> rd.
Proof.
  intros rd d g R H. apply root_list_in in H. destruct H as (k & Hk & ->).
  pose proof (i_root _ _ _ _ I _ _ _ R Hk) as O. pose proof (own_rtt _ _ _ _ I _ _ _ _ O) as St.
  split; [exact St|]. intro Eq. destruct R as [R _]. rewrite Eq in St. congruence.
Qed.

Lemma wp_realm_destroy : forall rd,
  wp False (smc_realm_destroy c rd) (mkS L S G V T) (fun r s' =>
    cmd_post c gh G V T r
      ((r = RMI_ERROR_INPUT /\ ~ exists d, is_rd G rd d) \/ (r = RMI_ERROR_REALM /\ exists d, is_rd G rd d /\
         (g_ref (G rd) <> 0 \/ exists k, k < num_root_rtts (rd_ctx d) /\ g_ref (G (g_rtt (rd_ctx d) + k * 4096)) <> 0)))
      (fun gh' labs inv => inv = [] /\ exists d, is_rd G rd d /\ g_ref (G rd) = 0 /\
         (forall k, k < num_root_rtts (rd_ctx d) -> g_ref (G (g_rtt (rd_ctx d) + k * 4096)) = 0) /\
         labs = [LRealmDestroy rd d]) s').
Proof.
  intros rd. unfold smc_realm_destroy. apply wp_bind, wp_find_lock_unused; [apply HL|apply (inv_uok _ _ _ _ I)| | |].
  2:{ intros L' HL' K. apply wp_ret. apply post_fail; try assumption; try discriminate; try reflexivity; [lk|].
      left. split; [reflexivity|]. intros (d & R). apply (no_rd _ _ _ _ I rd (fun _ => True) K). exists d. auto. }
  2:{ intros L' HL' F Sr Rf. destruct (rd_of_state _ _ _ _ I rd Sr) as (d & R & Ar).
      apply wp_ret. apply post_fail; try assumption; try discriminate; try reflexivity; auto; [lk|].
      right. split; [reflexivity|]. exists d. auto. }
  intros F Sr Rf. apply wp_bind, wp_map_slot; [side|].
  destruct (rd_of_state _ _ _ _ I rd Sr) as (d & R & Ar).
  apply wp_bind. eapply wp_get_rd; [exact Ar|]. cbv zeta.
  set (roots := root_list _ _).
  apply wp_bind, wp_total_refs.
  { intros g Hg. destruct (roots_rtt _ _ _ R Hg). updsimp. auto. }
  { apply (inv_uok _ _ _ _ I). }
  intros L' HL'. replace (0 + sum_refs G roots) with (sum_refs G roots) by lia.
  destruct (N.eqb_spec (sum_refs G roots) 0) as [Z|Z]; cbn [negb].
  - rewrite sum_refs_0 in Z.
    pose proof (rd_state_ok _ _ _ _ I _ _ R) as (K1 & K2 & K3 & K4).
    unfold vmid_free. apply wp_bind, wp_bind, wp_assert; [lia|]. apply wp_vmid_clear.
    apply wp_bind, wp_unmap_slot; [side|].
    apply wp_bind, wp_free_sl_rtts; [apply root_list_nodup|side| |].
    { intros g Hg. destruct (roots_rtt _ _ _ R Hg). split; [updsimp; apply HL|]. split; [assumption|apply Z, Hg]. }
    intros L2 S2 G2 HL2 HS2 HG2.
    assert (Nr : memN rd roots = false).
    { apply memN_out. intro K. destruct (roots_rtt _ _ _ R K). congruence. }
    apply wp_bind, wp_memzero; [side|]. intros S3 HS3.
    apply wp_bind, wp_unlock_transition; [side|updsimp; rewrite HG2, Nr, Rf; reflexivity|]. apply wp_ret.
    eapply post_ok; [lk|lk| |instantiate (1 := []); reflexivity|].
    + eapply geffs_one, g_realm_destroy; try eassumption.
      * intros k Hk. apply Z, root_list_in. eauto.
      * reflexivity.
      * updsimp. rewrite HG2, Nr, Rf. reflexivity.
      * intros k Hk. rewrite upd_other, upd_other, HG2.
        -- unfold roots. rewrite root_list_mem by assumption. reflexivity.
        -- apply (roots_rtt _ _ _ R). apply root_list_in. eauto.
        -- apply (roots_rtt _ _ _ R). apply root_list_in. eauto.
      * intros z nz Rz. rewrite upd_other, upd_other, HG2 by assumption. apply root_list_idx in Rz. unfold roots. rewrite Rz. reflexivity.
    + split; [reflexivity|]. exists d. split; [exact R|]. split; [exact Rf|]. split; [|reflexivity].
      intros k Hk. apply Z, root_list_in. eauto.
  - apply wp_bind, wp_unmap_slot; [side|]. apply wp_bind, wp_granule_unlock; [side|apply (inv_uok _ _ _ _ I)|]. apply wp_ret.
    apply post_fail; try assumption; try discriminate; try reflexivity; try lk.
    right. split; [reflexivity|]. exists d. split; [exact R|]. right.
    destruct (existsb (fun g => negb (g_ref (G g) =? 0)) roots) eqn:Ex.
    + apply existsb_exists in Ex. destruct Ex as (g & Hg & Hn). apply root_list_in in Hg. destruct Hg as (k & Hk & ->).
      exists k. split; [exact Hk|lia].
    + exfalso. apply Z. apply sum_refs_0. intros g Hg.
      destruct (N.eqb_spec (g_ref (G g)) 0); [assumption|]. exfalso.
      assert (existsb (fun g => negb (g_ref (G g) =? 0)) roots = true); [|congruence].
      apply existsb_exists. exists g. split; [exact Hg|lia].
Qed.

(** The locks taken by REALM_CREATE *)
Lemma wp_find_lock_rd_granules : forall rd base n (Q : _ -> state -> Prop) S0 V',
  0 < n <= 16 -> addr_is_contained base (wrap64 (base + n * GRANULE_SIZE)) rd = false ->
  (forall L', (forall z, L' z = memN z (rd :: root_list base n)) -> find_granule c rd = true -> g_state (G rd) = DELEGATED ->
     (forall k, k < n -> g_state (G (base + k * 4096)) = DELEGATED /\ base + k * 4096 <> rd) -> Q true (mkS L' S0 G V' T)) ->
  (forall L', free L' -> ~ (g_state (G rd) = DELEGATED /\ forall k, k < n -> g_state (G (base + k * 4096)) = DELEGATED) ->
     Q false (mkS L' S0 G V' T)) ->
  wp False (find_lock_rd_granules c rd base n) (mkS L S0 G V' T) Q.
Proof.
  intros rd base n Q S0 V' Hn Hc Q1 Q2. unfold find_lock_rd_granules. cbv zeta.
  pose proof (inv_uok _ _ _ _ I) as U.
  assert (Kn : forall z, g_state (G z) = DELEGATED -> find_granule c z = true)
    by (intros z Hz; apply (i_gran _ _ _ _ I); rewrite Hz; discriminate).
  set (WRONG := ~ _) in Q2.
  assert (Wrd : find_granule c rd = false \/ g_state (G rd) <> DELEGATED -> WRONG).
  { intros K (K1 & _). pose proof (Kn _ K1). destruct K; congruence. }
  assert (Wroot : forall g, In g (root_list base n) -> find_granule c g = false \/ g_state (G g) <> DELEGATED -> WRONG).
  { intros g Hg K (_ & K1). apply root_list_in in Hg. destruct Hg as (k & Hk & ->). specialize (K1 k Hk). pose proof (Kn _ K1). destruct K; congruence. }
  destruct (find_granule c base) eqn:Fb.
  - (* the address range does not wrap *)
    assert (Hb : base < 2 ^ 52).
    { unfold find_granule in Fb. apply andb_prop in Fb. apply C, Fb. }
    assert (Ne : forall k, k < n -> base + k * 4096 <> rd).
    { intros k Hk <-. unfold addr_is_contained, wrap64 in Hc. change GRANULE_SIZE with 4096 in Hc.
      assert (2 ^ 52 = 4503599627370496) as E52 by reflexivity. assert (2 ^ 64 = 18446744073709551616) as E64 by reflexivity.
      rewrite E52 in Hb. rewrite E64 in Hc. rewrite (N.mod_small (base + n * 4096)) in Hc by lia.
      replace (base + n * 4096 + 18446744073709551616 - 1) with (base + n * 4096 - 1 + 1 * 18446744073709551616) in Hc by lia.
      rewrite N.mod_add, N.mod_small in Hc by lia.
      destruct (N.ltb_spec (base + n * 4096 - 1) base); lia. }
    assert (Nrd : ~ In rd (root_list base n)).
    { intro K. apply root_list_in in K. destruct K as (k & Hk & E). exact (Ne k Hk (eq_sym E)). }
    pose proof (root_list_nodup base n) as ND.
    assert (UNL : forall l L1 (b : bool) g, NoDup l -> incl l (root_list base n) -> (forall z, L1 z = memN z l || (b && (z =? rd))) -> g = rd -> WRONG ->
      wp False (unlock_all l ;;; (if b then granule_unlock g else Ret tt) ;;; Ret false) (mkS L1 S0 G V' T) Q).
    { intros l L1 b g NDl Inc HL1 -> Wr. apply wp_bind, wp_unlock_all; [exact NDl| |].
      - intros g Hg. split; [rewrite HL1; apply memN_in in Hg; rewrite Hg; reflexivity|apply U].
      - intros L2 HL2. assert (Nl : memN rd l = false) by (apply memN_out; intro K; apply Nrd, Inc, K).
        destruct b.
        + apply wp_bind, wp_granule_unlock; [rewrite HL2, HL1, Nl, N.eqb_refl; reflexivity|apply U|]. apply wp_ret. apply Q2; [|exact Wr].
          intro z. unfold upd. destruct (N.eqb_spec z rd) as [|nz]; [reflexivity|]. rewrite HL2, HL1.
          apply N.eqb_neq in nz. rewrite nz. destruct (memN z l); reflexivity.
        + apply wp_bind, wp_ret, wp_ret. apply Q2; [|exact Wr]. intro z. rewrite HL2, HL1. destruct (memN z l); reflexivity. }
    assert (POST : forall L', (forall z, L' z = memN z (rd :: root_list base n)) -> find_granule c rd = true -> g_state (G rd) = DELEGATED ->
       (forall g, In g (root_list base n) -> find_granule c g = true /\ g_state (G g) = DELEGATED) -> Q true (mkS L' S0 G V' T)).
    { intros L' HL' F St A. apply Q1; try assumption. intros k Hk. split; [apply A, root_list_in; eauto|apply Ne, Hk]. }
    apply wp_bind. destruct (N.ltb_spec rd base) as [Lt|Ge].
    + apply wp_find_lock; [apply HL|apply U| |].
      * intros F St. cbn [negb]. apply wp_bind, wp_lock_roots; [exact ND| |exact U| |].
        -- intros g Hg. rewrite upd_other by congruence. apply HL.
        -- intros L' HL' A. cbn [fst]. apply wp_bind, wp_ret, wp_ret. apply POST; try assumption.
           intro z. rewrite HL', memN_cons. unfold upd. rewrite HL. rewrite orb_comm. destruct (z =? rd); reflexivity.
        -- intros L' l1 l2 El ne HL' X. cbn [fst snd]. apply wp_bind, wp_ret. rewrite app_nil_r.
           apply (UNL (rev l1) L' true rd); [apply NoDup_rev; rewrite El in ND; eapply nodup_app_l; exact ND| | |reflexivity|
             destruct X as (g & l3 & -> & X); apply (Wroot g); [rewrite El; apply in_or_app; right; left; reflexivity|exact X]].
           ++ intros z Hz. rewrite El. apply in_or_app. left. apply in_rev. exact Hz.
           ++ intro z. rewrite HL', memN_rev. unfold upd. rewrite HL. destruct (z =? rd); reflexivity.
      * intros L' HL' X. apply wp_ret. apply Q2; [|exact (Wrd X)]. intro z. rewrite HL'. apply HL.
    + apply wp_ret. cbn [negb]. apply wp_bind, wp_lock_roots; [exact ND| |exact U| |].
      * intros g Hg. apply HL.
      * intros L' HL' A. cbn [fst snd]. rewrite app_nil_r. apply wp_bind, wp_find_lock.
        -- rewrite HL', HL. apply memN_out in Nrd. rewrite Nrd. reflexivity.
        -- apply U.
        -- intros F St. apply wp_ret. apply POST; try assumption.
           intro z. rewrite memN_cons. unfold upd. destruct (z =? rd); [reflexivity|]. rewrite HL', HL. cbn. apply orb_false_r.
        -- intros L2 HL2 X. apply (UNL (rev (root_list base n)) L2 false rd); [apply NoDup_rev, ND| | |reflexivity|exact (Wrd X)].
           ++ intros z Hz. apply in_rev. exact Hz.
           ++ intro z. rewrite HL2, HL', HL, memN_rev. reflexivity.
      * intros L' l1 l2 El ne HL' X. cbn [fst snd]. apply wp_bind, wp_ret. rewrite app_nil_r.
        apply (UNL (rev l1) L' false rd); [apply NoDup_rev; rewrite El in ND; eapply nodup_app_l; exact ND| | |reflexivity|
             destruct X as (g & l3 & -> & X); apply (Wroot g); [rewrite El; apply in_or_app; right; left; reflexivity|exact X]].
        -- intros z Hz. rewrite El. apply in_or_app. left. apply in_rev. exact Hz.
        -- intro z. rewrite HL', HL, memN_rev. reflexivity.
  - (* the first table is not a granule *)
    assert (ER : exists l', root_list base n = base :: l').
    { unfold root_list. destruct (N.to_nat n) eqn:En; [lia|]. cbn [seq map]. rewrite N.mul_0_l, N.add_0_r. eexists. reflexivity. }
    destruct ER as (l' & ER).
    assert (Wr : WRONG) by (apply (Wroot base); [rewrite ER; left; reflexivity|auto]). rewrite ER. cbn [lock_roots].
    assert (FL : forall L0, wp False (find_lock_granule c base DELEGATED) (mkS L0 S0 G V' T) (fun b s => b = false /\ s = mkS L0 S0 G V' T)).
    { intro L0. unfold find_lock_granule. rewrite Fb. apply wp_ret. auto. }
    apply wp_bind. destruct (N.ltb_spec rd base) as [Lt|Ge].
    + apply wp_find_lock; [apply HL|apply U| |].
      * intros F St. cbn [negb]. apply wp_bind, wp_bind. eapply wp_conseq; [apply FL|auto|]. intros b s (-> & ->).
        apply wp_ret. cbn [fst snd]. apply wp_bind, wp_ret. cbn [unlock_all]. apply wp_bind, wp_ret.
        apply wp_bind, wp_granule_unlock; [apply upd_same|apply U|]. apply wp_ret. apply Q2; [lk|exact Wr].
      * intros L' HL' X. apply wp_ret. apply Q2; [|exact (Wrd X)]. intro z. rewrite HL'. apply HL.
    + apply wp_ret. cbn [negb]. apply wp_bind, wp_bind. eapply wp_conseq; [apply FL|auto|]. intros b s (-> & ->).
      apply wp_ret. cbn [fst snd]. apply wp_bind, wp_ret. cbn [unlock_all]. apply wp_bind, wp_ret.
      apply wp_bind, wp_ret, wp_ret. apply Q2; [exact HL|exact Wr].
Qed.

Definition created_rd (p : rparams) : rdesc :=
  set_meas (new_rd rd_zero p) RIM_MEASUREMENT_SLOT (measurement_realm_params_measure c (p_algorithm p) p).

(** The arguments of REALM_CREATE *)
Definition create_args (params : option rparams) (rd pa : N) : Prop := exists p, params = Some p /\
  find_granule c pa = true /\ g_state (G pa) = NS /\ realm_params_valid c p = true /\ p_vmid p < vmid_count c /\ V (p_vmid p) = false /\
  g_state (G rd) = DELEGATED /\
  forall k, k < p_rtt_num_start p -> g_state (G (p_rtt_base p + k * 4096)) = DELEGATED /\ p_rtt_base p + k * 4096 <> rd.

Lemma contained_root : forall base n rd, g_state (G rd) = DELEGATED -> g_state (G base) = DELEGATED -> 0 < n <= 16 ->
  addr_is_contained base (wrap64 (base + n * GRANULE_SIZE)) rd = true -> exists k, k < n /\ base + k * 4096 = rd.
Proof.
  intros base n rd Sr Sb Hn Hc.
  assert (Kn : forall z, g_state (G z) = DELEGATED -> z mod 4096 = 0 /\ z < 2 ^ 52).
  { intros z Hz. assert (F : find_granule c z = true) by (apply (i_gran _ _ _ _ I); rewrite Hz; discriminate).
    unfold find_granule, is_aligned_granule in F. change GRANULE_SIZE with 4096 in F. apply andb_prop in F. destruct F as (F1 & F2).
    split; [lia|apply C, F2]. }
  destruct (Kn _ Sr) as (Ar & _). destruct (Kn _ Sb) as (Ab & Lb).
  exists ((rd - base) / 4096). unfold addr_is_contained, wrap64 in Hc. change GRANULE_SIZE with 4096 in Hc.
  assert (2 ^ 52 = 4503599627370496) as E52 by reflexivity. assert (2 ^ 64 = 18446744073709551616) as E64 by reflexivity.
  rewrite E52 in Lb. rewrite E64 in Hc. rewrite (N.mod_small (base + n * 4096)) in Hc by lia.
  replace (base + n * 4096 + 18446744073709551616 - 1) with (base + n * 4096 - 1 + 1 * 18446744073709551616) in Hc by lia.
  rewrite N.mod_add, N.mod_small in Hc by lia.
  destruct (N.ltb_spec (base + n * 4096 - 1) base); [discriminate|]. lia.
Qed.

Lemma wp_realm_create : forall params rd pa,
  wp False (smc_realm_create c params rd pa) (mkS L S G V T) (fun r s' =>
    cmd_post c gh G V T r (r = RMI_ERROR_INPUT /\ ~ create_args params rd pa)
      (fun gh' labs inv => inv = [] /\ exists p, params = Some p /\ g_state (G pa) = NS /\
         realm_params_valid c p = true /\ p_vmid p < vmid_count c /\ V (p_vmid p) = false /\
         find_granule c pa = true /\ g_state (G rd) = DELEGATED /\
         (forall k, k < p_rtt_num_start p -> g_state (G (p_rtt_base p + k * 4096)) = DELEGATED /\ p_rtt_base p + k * 4096 <> rd) /\
         labs = [LRealmCreate rd (created_rd p)]) s').
Proof.
  intros params rd pa. unfold smc_realm_create.
  match goal with |- wp _ _ _ ?q => set (Q := q) end.
  assert (FAIL : forall L' S' V', free L' -> free S' -> (forall z, V' z = V z) -> ~ create_args params rd pa -> Q RMI_ERROR_INPUT (mkS L' S' G V' T)).
  { intros L' S' V' HL' HS' HV' K. unfold Q. apply post_fail; try assumption; try discriminate; try reflexivity. auto. }
  apply wp_bind. unfold get_realm_params. destruct (find_granule c pa) eqn:Fp; cbn [negb].
  2:{ apply wp_ret, wp_ret. apply FAIL; try assumption; [reflexivity|]. intros (p & _ & K & _). congruence. }
  apply wp_bind, wp_rd_state. destruct (gstate_eqb (g_state (G pa)) NS) eqn:Sp; cbn [negb].
  2:{ apply wp_ret, wp_ret. apply FAIL; try assumption; [reflexivity|]. intros (p & _ & _ & K & _). rewrite K in Sp. discriminate Sp. }
  apply gstate_eqb_eq in Sp.
  apply wp_bind, wp_map_slot; [side|]. apply wp_bind, wp_unmap_slot; [side|]. apply wp_ret.
  destruct params as [p|]; [|apply wp_ret; apply FAIL; try assumption; [lk|reflexivity|intros (p & K & _); discriminate K]].
  apply wp_bind. unfold validate_realm_params. destruct (realm_params_valid c p) eqn:Pv.
  2:{ apply wp_ret. cbn [negb]. apply wp_ret. apply FAIL; try assumption; [lk|reflexivity|].
      intros (p' & K & _ & _ & K2 & _). injection K as <-. congruence. }
  unfold vmid_reserve. destruct (N.leb_spec (vmid_count c) (p_vmid p)) as [|Hv].
  { apply wp_ret. cbn [negb]. apply wp_ret. apply FAIL; try assumption; [lk|reflexivity|].
    intros (p' & K & _ & _ & _ & K2 & _). injection K as <-. lia. }
  apply wp_bind, wp_vmid_set, wp_ret. destruct (V (p_vmid p)) eqn:Vp; cbn [negb].
  { apply wp_ret. apply FAIL; try assumption; try lk.
    intros (p' & K & _ & _ & _ & _ & K2 & _). injection K as <-. congruence. }
  assert (FREE : forall L' S', free L' -> free S' -> ~ create_args (Some p) rd pa ->
    wp False (vmid_free c (p_vmid p) ;;; Ret RMI_ERROR_INPUT) (mkS L' S' G (upd V (p_vmid p) true) T) Q).
  { intros L' S' HL' HS' NA. unfold vmid_free. apply wp_bind, wp_bind, wp_assert; [lia|]. apply wp_vmid_clear, wp_ret.
    apply FAIL; try assumption. intro z. unfold upd. destruct (N.eqb_spec z (p_vmid p)) as [->|]; congruence. }
  pose proof (params_ctx_ok c p Pv) as X.
  set (x := mkCtx _ _ _ _ _ _) in X. pose proof (root_pos _ X) as RP. pose proof (root_le16 _ X) as RP2. cbn [num_root_rtts x] in RP, RP2.
  destruct (addr_is_contained _ _ rd) eqn:Ac.
  { apply FREE; try assumption; [lk|]. intros (p' & K & _ & _ & _ & _ & _ & K1 & K2). injection K as <-.
    destruct (contained_root (p_rtt_base p) (p_rtt_num_start p) rd K1) as (k & Hk & E); [|lia|exact Ac|exact (proj2 (K2 k Hk) E)].
    destruct (K2 0 RP) as (K3 & _). rewrite N.mul_0_l, N.add_0_r in K3. exact K3. }
  set (S1 := upd (upd S SLOT_NS true) SLOT_NS false).
  assert (HS1 : free S1) by (unfold S1; lk).
  apply wp_bind, wp_find_lock_rd_granules; [lia|exact Ac| |].
  2:{ intros L' HL' NA. cbn [negb]. apply FREE; try assumption. intros (p' & K & _ & _ & _ & _ & _ & K1 & K2). injection K as <-.
      apply NA. split; [exact K1|]. intros k Hk. apply K2, Hk. }
  intros L1 HL1 Frd Srd SR. cbn [negb].
  pose proof (i_del _ _ _ _ I rd Srd) as Grd.
  apply wp_bind, wp_map_slot; [apply HS1|].
  apply wp_bind. eapply wp_get_rd; [rewrite Grd; reflexivity|]. cbv zeta.
  apply wp_bind, wp_put_rd.
  set (r := new_rd rd_zero p).
  assert (Ex : rd_ctx r = x) by reflexivity.
  unfold init_s2_starting_level. cbv zeta. rewrite Ex.
  assert (Xr : ctx_ok (rd_ctx r)) by exact X.
  apply wp_bind.
  pose proof (wp_init_roots r Xr L1 (upd V (p_vmid p) true) T (N.to_nat (num_root_rtts x)) 0 (upd S1 SLOT_RD true)
    (upd G rd (mkG (g_state (G rd)) (g_ref (G rd)) (CRd r)))) as WI.
  rewrite Ex in WI. cbn [g_rtt num_root_rtts x] in WI |- *. rewrite N.mul_0_l, N.add_0_r in WI. rewrite N.mul_0_r, N.mul_0_l in WI.
  apply WI; clear WI; [lia|lia|updsimp; apply HS1| |].
  { intros j Hj. rewrite upd_other by (apply SR; lia). apply (i_del _ _ _ _ I). apply SR. lia. }
  intros S2 G2 HS2 RW2 F2.
  apply wp_bind, wp_put_rd. apply wp_bind, wp_unmap_slot; [side|].
  set (roots := root_list (p_rtt_base p) (p_rtt_num_start p)).
  assert (Nrd : ~ In rd roots).
  { intro K. apply root_list_in in K. destruct K as (k & Hk & E). exact (proj2 (SR k Hk) (eq_sym E)). }
  assert (Erd : G2 rd = mkG DELEGATED 0 (CRd r)).
  { rewrite F2; [rewrite upd_same, Grd; reflexivity|]. intros j Hj E. apply (proj2 (SR j ltac:(lia))). symmetry. exact E. }
  rewrite Erd. cbn [g_state g_ref].
  apply wp_bind, wp_unlock_transition; [rewrite HL1; apply memN_in; left; reflexivity|rewrite upd_same; reflexivity|].
  rewrite upd_same. cbn [g_ref g_mem].
  apply wp_bind, wp_transition_all; [apply root_list_nodup| |].
  { intros g Hg. assert (g <> rd) by congruence. rewrite !upd_other by assumption. split; [rewrite HL1; apply memN_in; right; exact Hg|].
    apply root_list_in in Hg. destruct Hg as (k & Hk & ->). destruct (RW2 k ltac:(lia)) as (f & E & _). rewrite E. reflexivity. }
  intros L3 G3 HL3 HG3. apply wp_ret. unfold Q.
  eapply post_ok.
  - intro z. rewrite HL3. unfold upd. destruct (N.eqb_spec z rd) as [|nz]; [apply andb_false_r|]. rewrite HL1, memN_cons.
    apply N.eqb_neq in nz. rewrite nz. fold roots. destruct (memN z roots); reflexivity.
  - intro z. unfold upd. destruct (N.eqb_spec z SLOT_RD); [reflexivity|]. rewrite HS2. unfold upd.
    destruct (N.eqb_spec z SLOT_RD); [congruence|]. apply HS1.
  - apply memN_out in Nrd.
    eapply geffs_one. apply (g_realm_create c gh G V rd (created_rd p)).
    + exact Srd.
    + exact SR.
    + split; [exact X|]. split; [vm_compute; discriminate|]. split; [exact Hv|reflexivity].
    + exact Vp.
    + reflexivity.
    + rewrite HG3, Nrd, upd_same. reflexivity.
    + intros k Hk. destruct (RW2 k ltac:(cbn in Hk; lia)) as (f & E & W). exists f. split; [|exact W].
      rewrite HG3. unfold roots. cbn [rd_ctx created_rd set_meas new_rd g_rtt num_root_rtts] in *.
      rewrite root_list_mem by exact Hk. rewrite !upd_other by (apply SR; exact Hk). rewrite E. reflexivity.
    + intros z nz Rz. cbn [rd_ctx created_rd set_meas new_rd g_rtt num_root_rtts] in Rz. rewrite HG3. unfold roots. 
      pose proof Rz as Rz'. apply root_list_idx in Rz'. rewrite Rz'. rewrite !upd_other by assumption. rewrite F2.
      * apply upd_other. exact nz.
      * intros j Hj. apply (proj1 (root_idx_none _ _ _) Rz). lia.
  - instantiate (1 := []). reflexivity.
  - split; [reflexivity|]. exists p. repeat (split; [first [reflexivity|assumption]|]). reflexivity.
Qed.
End Cmd.
