(** RTT_MAP_UNPROTECTED, RTT_UNMAP_UNPROTECTED and RTT_READ_ENTRY *)
From Coq Require Import NArith ZArith List Bool Lia ZifyBool ZifyN.
From Verif Require Import Bits S2tte S2tteFacts State Granule Wp RecFields Measure RmiGranule RmiRtt RmiRealm Psci RmiRec
  Inv InvTree InvStep InvStep2 InvStep3 Effects CmdLib CmdRtt CmdFold CmdRtt2.
Import ListNotations.
Local Open Scope N_scope.

Lemma host_ns_enc : forall lpa2 level attrs pa, valid_entry lpa2 level (EAsNs attrs pa) ->
  host_ns_s2tte lpa2 (enc lpa2 level (EAsNs attrs pa)) level = N.lor attrs (pa_to_s2tte pa lpa2).
Proof.
  intros lpa2 level attrs pa (B & P & At).
  pose proof (pa_ok_page lpa2 level pa ltac:(unfold block_level in B; lia) P) as P3.
  cbn [enc]. rewrite enc_ns_norm by assumption. unfold host_ns_s2tte.
  rewrite !N.land_lor_distr_l.
  assert (C0 : N.land (ns_const lpa2 level) (N.lor (s2tte_lvl_mask level lpa2) S2TTE_NS_ATTR_MASK) = 0).
  { assert (level = 1 \/ level = 2 \/ level = 3)%Z as [-> | [-> | ->]] by (unfold block_level in B; lia); destruct lpa2; reflexivity. }
  rewrite C0, N.lor_0_r.
  assert (A0 : N.land attrs (N.lor (s2tte_lvl_mask level lpa2) S2TTE_NS_ATTR_MASK) = attrs).
  { destruct At as [At _]. apply N.bits_inj. intro n.
    pose proof (f_equal (fun z => N.testbit z n) At) as B0. cbn beta in B0. rewrite N.land_spec in B0.
    rewrite N.land_spec, N.lor_spec. destruct (N.testbit attrs n); [|reflexivity]. cbn [andb] in *. rewrite B0. apply orb_true_r. }
  rewrite A0, N.lor_comm. f_equal.
  apply N.bits_inj. intro n. rewrite N.land_spec, N.lor_spec.
  destruct (N.testbit (pa_to_s2tte pa lpa2) n) eqn:Bn; [|reflexivity].
  enough (N.testbit (s2tte_lvl_mask level lpa2) n = true) as -> by reflexivity.
  destruct P3 as [P1 P2]. destruct P as [Pa _].
  unfold s2tte_lvl_mask, S2TTE_OA_BITS. destruct lpa2.
  - rewrite testbit_pa_to_s2tte in Bn by assumption.
    unfold LPA2_S2TTE_51_50, LPA2_OA_49_48. autorewrite with tbit. clear -B Pa P2 Bn.
    revert Bn. unfold block_level, lvl_lsb in *. bit_cases; intro Bn; try discriminate; try reflexivity; exfalso;
      first [ rewrite (testbit_low_aligned pa _ n Pa) in Bn by lia; discriminate
            | rewrite (testbit_false_lt pa 52 _ P2) in Bn by lia; discriminate ].
  - unfold pa_to_s2tte in Bn. autorewrite with tbit. clear -B Pa P2 Bn. unfold block_level, lvl_lsb in *. bit_cases; try reflexivity; exfalso;
      first [ rewrite (testbit_low_aligned pa _ n Pa) in Bn by lia; discriminate
            | rewrite (testbit_false_lt pa 48 _ P2) in Bn by lia; discriminate ].
Qed.

(** What RTT_READ_ENTRY reports of an entry: state, address and RIPAS *)
Definition read_spec (lpa2 : bool) (e : entry) : N * N * N :=
  match e with
  | EUnEmpty => (RMI_UNASSIGNED, 0, RIPAS_EMPTY)
  | EUnRam => (RMI_UNASSIGNED, 0, RIPAS_RAM)
  | EUnDestr => (RMI_UNASSIGNED, 0, RIPAS_DESTROYED)
  | EUnNs => (RMI_UNASSIGNED, 0, RIPAS_EMPTY)
  | EAsEmpty pa => (RMI_ASSIGNED, pa, RIPAS_EMPTY)
  | EAsRam pa => (RMI_ASSIGNED, pa, RIPAS_RAM)
  | EAsDestr pa => (RMI_ASSIGNED, pa, RIPAS_DESTROYED)
  | EAsNs attrs pa => (RMI_ASSIGNED, N.lor attrs (pa_to_s2tte pa lpa2), RIPAS_EMPTY)
  | ETable pa => (RMI_TABLE, pa, RIPAS_EMPTY)
  end.

Lemma wp_read_result : forall E x l e s (Q : _ -> state -> Prop), (min_starting_level (enable_lpa2 x) <= l <= 3)%Z ->
  valid_entry (enable_lpa2 x) l e -> Q (read_spec (enable_lpa2 x) e) s ->
  wp E (read_entry_result x (enc (enable_lpa2 x) l e) l) s Q.
Proof.
  intros E x l e s Q Hl VE HQ. unfold read_entry_result.
  rewrite (is_unassigned_empty_enc _ _ _ VE), (is_unassigned_ram_enc _ _ _ VE), (is_unassigned_destroyed_enc _ _ _ VE),
    (is_assigned_empty_enc _ _ _ VE), (is_assigned_ram_enc _ _ _ VE), (is_assigned_destroyed_enc _ _ _ VE),
    (is_unassigned_ns_enc _ _ _ VE), (is_assigned_ns_enc _ _ _ VE), (is_table_enc _ _ _ VE).
  pose proof (pa_enc _ _ _ VE) as PE. pose proof (is_live_enc _ _ _ VE) as LE.
  destruct e; cbn iota; try (apply wp_ret; exact HQ);
    try (apply wp_bind, wp_s2tte_pa; [lia|exact LE|]; rewrite PE; apply wp_ret; exact HQ).
  apply wp_bind, wp_assert; [destruct VE as [B _]; unfold block_level in B; change S2TT_MIN_BLOCK_LEVEL with 1%Z; lia|].
  apply wp_ret. rewrite (host_ns_enc _ _ _ _ VE). exact HQ.
Qed.

Section Cmd.
Variables (c : cfg) (gh : ghost) (G : N -> granule) (V : N -> bool).
Hypothesis C : cfg_ok c.
Hypothesis I : Inv c gh G V.
Variables (L S : N -> bool) (T : list tlbe).
Hypothesis HL : free L.
Hypothesis HS : free S.

Lemma wp_rtt_read_entry : forall rd addr ulevel, let level := sgn64 ulevel in
  wp False (smc_rtt_read_entry c rd addr ulevel) (mkS L S G V T) (fun r s' =>
    cmd_post c gh G V T (x0 r)
      (x0 r = RMI_ERROR_INPUT /\ ~ exists d, is_rd G rd d /\ (s2_sl (rd_ctx d) <= level <= 3)%Z /\ addr < 2 ^ ipa_bits (rd_ctx d) /\ addr mod ms level = 0)
      (fun gh' labs inv => labs = [] /\ inv = [] /\ gh' = gh /\ exists d wi, is_rd G rd d /\
         (s2_sl (rd_ctx d) <= level <= 3)%Z /\ addr < 2 ^ ipa_bits (rd_ctx d) /\ addr mod ms level = 0 /\
         walk_res gh (rd_ctx d) rd addr level wi /\ x1 r = of_long (w_level wi) /\
         (x2 r, x3 r, x4 r) = read_spec (enable_lpa2 (rd_ctx d)) (ent gh (w_llt wi) (w_index wi))) s').
Proof.
  intros rd addr ulevel level. unfold smc_rtt_read_entry. fold level.
  apply wp_bind, wp_find_lock; [apply HL|apply (inv_uok _ _ _ _ I)| |].
  2:{ intros L' HL' K. apply wp_ret. apply post_fail; try assumption; try discriminate; try reflexivity; [lk|].
      split; [reflexivity|]. apply (no_rd _ _ _ _ I), K. }
  intros F Sr. cbn [negb].
  apply wp_bind, wp_map_slot; [side|].
  destruct (rd_of_state _ _ _ _ I rd Sr) as (d & R & Ar).
  apply wp_bind. eapply wp_get_rd; [exact Ar|].
  apply wp_bind. eapply (wp_validate_entry _ _ _ _ I); [exact R|]. intros b Hb.
  destruct b; cbn [negb].
  2:{ apply wp_bind, wp_unmap_slot; [side|]. apply wp_bind, wp_granule_unlock; [side|apply (inv_uok _ _ _ _ I)|]. apply wp_ret.
      apply post_fail; try assumption; try discriminate; try reflexivity; try lk.
      split; [reflexivity|]. eapply (bad_rd G); [exact R|]. intro K. apply Hb in K. discriminate K. }
  destruct (proj1 Hb eq_refl) as (Hl & Ha & Hal). clear Hb.
  set (x := rd_ctx d) in *.
  apply wp_bind, wp_unmap_slot; [side|].
  apply (wp_lock_walk _ _ _ _ I _ _ rd d); try assumption; try (fold x; lia); try side.
  { intros a Sa. unfold upd. destruct (N.eqb_spec a rd); [congruence|apply HL]. }
  intros wi L2 S2 HL2 HS2 W.
  destruct (walk_at _ _ _ _ I _ _ _ _ _ R W) as (f & e & A & Hwl & NT).
  fold x in A, Hwl.
  pose proof (ae_st _ _ _ _ _ _ _ _ _ _ A) as Sl.
  assert (n1 : w_llt wi <> rd) by congruence.
  pose proof (ae_valid _ _ _ _ _ _ _ _ _ _ A) as VE. pose proof (ae_mem _ _ _ _ _ _ _ _ _ _ A) as Ml.
  pose proof (ae_f _ _ _ _ _ _ _ _ _ _ A) as Hf. pose proof (ae_lt _ _ _ _ _ _ _ _ _ _ A) as Hi.
  pose proof (inv_ctx _ _ _ _ I _ _ R) as X. fold x in X. pose proof (ctx_sl _ X) as SL. pose proof (ctx_min _ X) as MIN.
  apply wp_bind, wp_map_slot; [side|].
  apply wp_bind. eapply wp_rd_word; [exact Ml|]. rewrite Hf.
  apply wp_bind, wp_read_result; [lia|exact VE|].
  apply wp_bind, wp_unmap_slot; [side|]. apply wp_bind, wp_granule_unlock; [side|apply (inv_uok _ _ _ _ I)|]. apply wp_ret.
  eapply post_ok; [lk|lk|apply gs_nil; reflexivity|instantiate (1 := []); reflexivity|].
  split; [reflexivity|]. split; [reflexivity|]. split; [reflexivity|].
  exists d, wi. split; [exact R|]. split; [exact Hl|]. split; [exact Ha|]. split; [exact Hal|]. split; [exact W|]. split; [reflexivity|].
  cbn [x2 x3 x4]. fold x. rewrite <- (ae_e _ _ _ _ _ _ _ _ _ _ A). destruct (read_spec (enable_lpa2 x) e) as [[? ?] ?]. reflexivity.
Qed.

Lemma wp_validate_mapcmds : forall E addr level rd d s (Q : _ -> state -> Prop), is_rd G rd d -> (1 <= level <= 3)%Z ->
  (forall b, (b = true <-> addr < 2 ^ ipa_bits (rd_ctx d) /\ addr mod ms level = 0) -> Q b s) ->
  wp E (validate_rtt_map_cmds addr level d) s Q.
Proof.
  intros * R Hl HQ. pose proof (inv_ctx _ _ _ _ I _ _ R) as X. pose proof (ctx_min _ X). pose proof (ctx_sl _ X).
  unfold validate_rtt_map_cmds. change S2TT_PAGE_LEVEL with 3%Z. change S2TT_MIN_BLOCK_LEVEL with 1%Z.
  assert ((level <? 1)%Z || (3 <? level)%Z = false) as -> by lia.
  unfold validate_map_addr, realm_ipa_size. destruct (N.ltb_spec addr (2 ^ ipa_bits (rd_ctx d))) as [Ha|Ha].
  - apply wp_addr_lvl_aligned.
    + unfold min_starting_level, S2TT_MIN_STARTING_LEVEL_LPA2, S2TT_MIN_STARTING_LEVEL. destruct (enable_lpa2 (rd_ctx d)); lia.
    + apply HQ. rewrite addr_lvl_aligned_iff by lia. unfold pa_ok, s2tte_map_size.
      assert (addr < 2 ^ oa_bits (enable_lpa2 (rd_ctx d))) by (eapply N.lt_le_trans; [exact Ha|apply pow2_le; apply X]). tauto.
  - apply wp_ret, HQ. split; [discriminate|lia].
Qed.

(** The walk of a level above the starting level fails its assertion *)
Definition ns_bad (rd : N) (level : Z) : Prop := exists d, is_rd G rd d /\ (1 <= level < s2_sl (rd_ctx d))%Z.

(** The arguments of the two commands *)
Definition ns_args (rd addr : N) (level : Z) (P : rdesc -> Prop) : Prop := exists d, is_rd G rd d /\
  (1 <= level <= 3)%Z /\ 2 ^ (ipa_bits (rd_ctx d) - 1) <= addr < 2 ^ ipa_bits (rd_ctx d) /\ addr mod ms level = 0 /\ P d.
Definition unns_e (e : entry) : bool := match e with EUnNs => true | _ => false end.
Definition asns_e (e : entry) : bool := match e with EAsNs _ _ => true | _ => false end.

Lemma wp_rtt_map_unprotected : forall rd addr ulevel h, let level := sgn64 ulevel in
  wp (ns_bad rd level) (smc_rtt_map_unprotected c rd addr ulevel h) (mkS L S G V T) (fun r s' =>
    cmd_post c gh G V T r
      ((r = RMI_ERROR_INPUT /\ ~ ns_args rd addr level (fun d => host_ns_s2tte_is_valid (enable_lpa2 (rd_ctx d)) h level = true)) \/ walk_fail gh G rd addr level unns_e r)
      (fun gh' labs inv => inv = [] /\ exists d, is_rd G rd d /\
         (1 <= level <= 3)%Z /\ (s2_sl (rd_ctx d) <= level)%Z /\ 2 ^ (ipa_bits (rd_ctx d) - 1) <= addr < 2 ^ ipa_bits (rd_ctx d) /\
         addr mod ms level = 0 /\ host_ns_s2tte_is_valid (enable_lpa2 (rd_ctx d)) h level = true /\
         labs = [LEntry rd level (addr / ms level) EUnNs
                   (EAsNs (N.land h S2TTE_NS_ATTR_MASK) (s2tte_to_pa h level (enable_lpa2 (rd_ctx d))))]) s').
Proof.
  intros rd addr ulevel h level. unfold smc_rtt_map_unprotected. fold level.
  change S2TT_PAGE_LEVEL with 3%Z. change S2TT_MIN_BLOCK_LEVEL with 1%Z.
  destruct ((level <? 1)%Z || (3 <? level)%Z) eqn:Lv.
  { apply wp_ret. apply post_fail; try assumption; try discriminate; try reflexivity. left. split; [reflexivity|].
    intros (d & _ & K & _). lia. }
  assert (Hl : (1 <= level <= 3)%Z) by lia. clear Lv.
  unfold map_unmap_ns. apply wp_bind.
  apply wp_bind, wp_find_lock; [apply HL|apply (inv_uok _ _ _ _ I)| |].
  2:{ intros L' HL' K. apply wp_ret. apply wp_ret. apply post_fail; try assumption; try discriminate; try reflexivity; [lk|].
      left. split; [reflexivity|]. apply (no_rd _ _ _ _ I), K. }
  intros F Sr. cbn [negb].
  apply wp_bind, wp_map_slot; [side|].
  destruct (rd_of_state _ _ _ _ I rd Sr) as (d & R & Ar).
  apply wp_bind. eapply wp_get_rd; [exact Ar|]. cbv zeta.
  apply wp_bind, wp_bind, wp_assert; [change S2TT_MIN_BLOCK_LEVEL with 1%Z; lia|]. apply wp_ret.
  assert (FAIL0 : forall L' S', (forall z, L' z = upd L rd true z) -> (forall z, S' z = upd S SLOT_RD true z) ->
     ~ ns_args rd addr level (fun d => host_ns_s2tte_is_valid (enable_lpa2 (rd_ctx d)) h level = true) ->
     wp (ns_bad rd level) (unmap_slot SLOT_RD ;;; granule_unlock rd ;;; Ret (res0 RMI_ERROR_INPUT)) (mkS L' S' G V T)
       (fun out s' => wp (ns_bad rd level) (Ret (x0 out)) s' (fun r s' =>
    cmd_post c gh G V T r
      ((r = RMI_ERROR_INPUT /\ ~ ns_args rd addr level (fun d => host_ns_s2tte_is_valid (enable_lpa2 (rd_ctx d)) h level = true)) \/ walk_fail gh G rd addr level unns_e r)
      (fun gh' labs inv => inv = [] /\ exists d, is_rd G rd d /\
         (1 <= level <= 3)%Z /\ (s2_sl (rd_ctx d) <= level)%Z /\ 2 ^ (ipa_bits (rd_ctx d) - 1) <= addr < 2 ^ ipa_bits (rd_ctx d) /\
         addr mod ms level = 0 /\ host_ns_s2tte_is_valid (enable_lpa2 (rd_ctx d)) h level = true /\
         labs = [LEntry rd level (addr / ms level) EUnNs
                   (EAsNs (N.land h S2TTE_NS_ATTR_MASK) (s2tte_to_pa h level (enable_lpa2 (rd_ctx d))))]) s'))).
  { intros L' S' HL' HS' NA.
    apply wp_bind, wp_unmap_slot; [side|]. apply wp_bind, wp_granule_unlock; [side|apply (inv_uok _ _ _ _ I)|]. apply wp_ret.
    apply wp_ret. cbn [x0 res0]. apply post_fail; try discriminate; try reflexivity; auto; lk. }
  destruct (host_ns_s2tte_is_valid (enable_lpa2 (rd_ctx d)) h level) eqn:HV; cbn [negb].
  2:{ apply FAIL0; try reflexivity. eapply (bad_rd G); [exact R|]. intros (_ & _ & _ & K). congruence. }
  apply wp_bind. eapply wp_validate_mapcmds; [exact R|exact Hl|]. intros b Hb. destruct b; cbn [negb].
  2:{ apply FAIL0; try reflexivity. eapply (bad_rd G); [exact R|]. intros (_ & K1 & K2 & _). assert (false = true) by (apply Hb; tauto). discriminate. }
  destruct (proj1 Hb eq_refl) as (Ha & Hal). clear Hb.
  pose proof (in_par_iff _ _ _ _ I rd d addr R) as IP.
  destruct (addr_in_par d addr) eqn:Par; [apply FAIL0; try reflexivity; eapply (bad_rd G); [exact R|]; intros (_ & K1 & _); pose proof (proj1 IP eq_refl); lia|]. clear FAIL0.
  assert (Hnp : 2 ^ (ipa_bits (rd_ctx d) - 1) <= addr).
  { destruct (N.lt_ge_cases addr (2 ^ (ipa_bits (rd_ctx d) - 1))) as [H|H]; [apply IP in H; discriminate|exact H]. }
  clear IP. set (x := rd_ctx d) in *.
  apply wp_bind, wp_unmap_slot; [side|].
  destruct (Z.lt_ge_cases level (s2_sl x)) as [Bad|Hsl].
  { pose proof (root0_own _ _ _ _ I _ _ R) as O. pose proof (own_rtt _ _ _ _ I _ _ _ _ O) as St.
    assert (ne : g_rtt (rd_ctx d) <> rd) by (intro E0; destruct R; congruence). fold x in St, ne.
    apply wp_bind, wp_granule_lock; [unfold upd; destruct (N.eqb_spec (g_rtt x) rd); [contradiction|apply HL]|apply (inv_uok _ _ _ _ I)|exact St|].
    apply wp_bind, wp_granule_unlock; [side|apply (inv_uok _ _ _ _ I)|].
    apply wp_bind. unfold s2tt_walk_lock_unlock. apply wp_bind. unfold assert_.
    assert ((s2_sl x <=? level)%Z = false) as -> by lia.
    hnf. exists d. split; [exact R|]. fold x. lia. }
  apply (wp_lock_walk _ _ _ _ I _ _ rd d); try assumption; try (fold x; lia); try side.
  { intros a Sa. unfold upd. destruct (N.eqb_spec a rd); [congruence|apply HL]. }
  intros wi L2 S2 HL2 HS2 W.
  destruct (walk_at _ _ _ _ I _ _ _ _ _ R W) as (f & e & A & Hwl & NT).
  fold x in A, Hwl.
  pose proof (ae_st _ _ _ _ _ _ _ _ _ _ A) as Sl.
  assert (n1 : w_llt wi <> rd) by congruence.
  pose proof (ae_valid _ _ _ _ _ _ _ _ _ _ A) as VE. pose proof (ae_mem _ _ _ _ _ _ _ _ _ _ A) as Ml.
  pose proof (ae_f _ _ _ _ _ _ _ _ _ _ A) as Hf. pose proof (ae_lt _ _ _ _ _ _ _ _ _ _ A) as Hi.
  pose proof (inv_ctx _ _ _ _ I _ _ R) as X. fold x in X.
  apply wp_bind.
  destruct (Z.eqb_spec (w_level wi) level) as [El|]; cbn [negb].
  2:{ apply wp_ret. apply wp_bind, wp_granule_unlock; [side|apply (inv_uok _ _ _ _ I)|]. apply wp_ret. apply wp_ret.
      apply post_fail; try apply pack_nonzero; try reflexivity; try lk. right. exists d, wi. repeat (split; [first [assumption|reflexivity]|]). contradiction. }
  apply wp_bind, wp_map_slot; [side|].
  apply wp_bind. eapply wp_rd_word; [exact Ml|]. rewrite Hf, (is_unassigned_ns_enc _ _ _ VE).
  apply wp_bind.
  assert (Dec : e = EUnNs \/ e <> EUnNs) by (destruct e; (left; reflexivity) || (right; discriminate)).
  destruct Dec as [->|Ne].
  - cbn [negb]. unfold s2tte_create_assigned_ns_.
    apply wp_bind, wp_bind, wp_assert; [unfold block_level_b; change S2TT_PAGE_LEVEL with 3%Z; change S2TT_MIN_BLOCK_LEVEL with 1%Z; lia|].
    apply wp_ret. apply wp_bind. eapply wp_wr_word; [exact Ml|]. apply wp_ret.
    apply wp_bind, wp_unmap_slot; [side|]. apply wp_ret.
    apply wp_bind, wp_granule_unlock; [side|pose proof (inv_uok _ _ _ _ I (w_llt wi)) as U; unfold uok in *; updsimp; rewrite Sl in *; exact U|].
    apply wp_ret. apply wp_ret. cbn [x0 res0].
    rewrite El in A.
    assert (BL : block_level level) by (unfold block_level; lia).
    destruct (host_ns_decompose _ _ _ BL HV) as (VN & Eh & _).
    set (attrs := N.land h S2TTE_NS_ATTR_MASK) in *. set (pa := s2tte_to_pa h level (enable_lpa2 x)) in *.
    eapply post_ok; [lk|lk| |instantiate (1 := []); reflexivity|].
    + eapply geffs_one. eapply (ge_entry _ _ _ _ _ d level _ _ _ f EUnNs (EAsNs attrs pa) (upd f (w_index wi) (s2tte_create_assigned_ns (enable_lpa2 x) h level))); try exact R; try exact A; try reflexivity.
      * pose proof (ae_ok _ _ _ _ _ _ _ _ _ _ A) as [_ B]. split; [exact VN|exact B].
      * eapply words_upd; [exact (ae_words _ _ _ _ _ _ _ _ _ _ A)|intros j nj; reflexivity|].
        cbn [enc]. fold x. rewrite <- Eh. reflexivity.
      * updsimp. rewrite Sl. reflexivity.
      * intros z nz. updsimp. reflexivity.
    + split; [reflexivity|]. exists d. split; [exact R|]. split; [exact Hl|]. split; [exact Hsl|]. split; [split; [exact Hnp|exact Ha]|].
      split; [exact Hal|]. split; [exact HV|]. reflexivity.
  - assert ((match e with EUnNs => true | _ => false end) = false) as -> by (destruct e; congruence). cbn [negb].
    apply wp_ret. apply wp_bind, wp_unmap_slot; [side|]. apply wp_ret.
    apply wp_bind, wp_granule_unlock; [side|apply (inv_uok _ _ _ _ I)|]. apply wp_ret. apply wp_ret. cbn [x0 res0].
    apply post_fail; try apply pack_nonzero; try reflexivity; try lk. right. exists d, wi. fold x. rewrite El. repeat (split; [first [assumption|reflexivity]|]).
    intros _. rewrite <- (ae_e _ _ _ _ _ _ _ _ _ _ A). destruct e; try reflexivity; contradiction Ne; reflexivity.
Qed.

Lemma wp_rtt_unmap_unprotected : forall rd addr ulevel, let level := sgn64 ulevel in
  wp (ns_bad rd level) (smc_rtt_unmap_unprotected c rd addr ulevel) (mkS L S G V T) (fun r s' =>
    cmd_post c gh G V T (x0 r)
      ((x0 r = RMI_ERROR_INPUT /\ ~ ns_args rd addr level (fun _ => True)) \/ walk_fail_top gh G rd addr level asns_e (x0 r) (x1 r))
      (fun gh' labs inv => exists d attrs pa wi, is_rd G rd d /\
         (1 <= level <= 3)%Z /\ (s2_sl (rd_ctx d) <= level)%Z /\ 2 ^ (ipa_bits (rd_ctx d) - 1) <= addr < 2 ^ ipa_bits (rd_ctx d) /\
         addr mod ms level = 0 /\
         labs = [LEntry rd level (addr / ms level) (EAsNs attrs pa) EUnNs] /\
         walk_res gh (rd_ctx d) rd addr level wi /\ w_level wi = level /\
         top_ok (ent gh' (w_llt wi)) level (w_index wi) addr (x1 r) /\
         inv = [(vmid (rd_ctx d), addr, 4096)]) s').
Proof.
  intros rd addr ulevel level. unfold smc_rtt_unmap_unprotected. fold level.
  change S2TT_PAGE_LEVEL with 3%Z. change S2TT_MIN_BLOCK_LEVEL with 1%Z.
  destruct ((level <? 1)%Z || (3 <? level)%Z) eqn:Lv.
  { apply wp_ret. apply post_fail; try assumption; try discriminate; try reflexivity. left. split; [reflexivity|].
    intros (d & _ & K & _). lia. }
  assert (Hl : (1 <= level <= 3)%Z) by lia. clear Lv.
  unfold map_unmap_ns.
  apply wp_bind, wp_find_lock; [apply HL|apply (inv_uok _ _ _ _ I)| |].
  2:{ intros L' HL' K. apply wp_ret. apply post_fail; try assumption; try discriminate; try reflexivity; [lk|].
      left. split; [reflexivity|]. apply (no_rd _ _ _ _ I), K. }
  intros F Sr. cbn [negb].
  apply wp_bind, wp_map_slot; [side|].
  destruct (rd_of_state _ _ _ _ I rd Sr) as (d & R & Ar).
  apply wp_bind. eapply wp_get_rd; [exact Ar|]. cbv zeta.
  apply wp_bind, wp_ret. cbn [negb].
  match goal with |- wp _ _ _ ?q => set (Q := q) end.
  assert (FAIL0 : forall L' S', (forall z, L' z = upd L rd true z) -> (forall z, S' z = upd S SLOT_RD true z) -> ~ ns_args rd addr level (fun _ => True) ->
     wp (ns_bad rd level) (unmap_slot SLOT_RD ;;; granule_unlock rd ;;; Ret (res0 RMI_ERROR_INPUT)) (mkS L' S' G V T) Q).
  { intros L' S' HL' HS' NA.
    apply wp_bind, wp_unmap_slot; [side|]. apply wp_bind, wp_granule_unlock; [side|apply (inv_uok _ _ _ _ I)|]. apply wp_ret.
    unfold Q. cbn [x0 res0]. apply post_fail; try discriminate; try reflexivity; auto; lk. }
  apply wp_bind. eapply wp_validate_mapcmds; [exact R|exact Hl|]. intros b Hb. destruct b; cbn [negb].
  2:{ apply FAIL0; try reflexivity. eapply (bad_rd G); [exact R|]. intros (_ & K1 & K2 & _). assert (false = true) by (apply Hb; tauto). discriminate. }
  destruct (proj1 Hb eq_refl) as (Ha & Hal). clear Hb.
  pose proof (in_par_iff _ _ _ _ I rd d addr R) as IP.
  destruct (addr_in_par d addr) eqn:Par; [apply FAIL0; try reflexivity; eapply (bad_rd G); [exact R|]; intros (_ & K1 & _); pose proof (proj1 IP eq_refl); lia|]. clear FAIL0.
  assert (Hnp : 2 ^ (ipa_bits (rd_ctx d) - 1) <= addr).
  { destruct (N.lt_ge_cases addr (2 ^ (ipa_bits (rd_ctx d) - 1))) as [H|H]; [apply IP in H; discriminate|exact H]. }
  clear IP. set (x := rd_ctx d) in *.
  apply wp_bind, wp_unmap_slot; [side|].
  destruct (Z.lt_ge_cases level (s2_sl x)) as [Bad|Hsl].
  { pose proof (root0_own _ _ _ _ I _ _ R) as O. pose proof (own_rtt _ _ _ _ I _ _ _ _ O) as St.
    assert (ne : g_rtt (rd_ctx d) <> rd) by (intro E0; destruct R; congruence). fold x in St, ne.
    apply wp_bind, wp_granule_lock; [unfold upd; destruct (N.eqb_spec (g_rtt x) rd); [contradiction|apply HL]|apply (inv_uok _ _ _ _ I)|exact St|].
    apply wp_bind, wp_granule_unlock; [side|apply (inv_uok _ _ _ _ I)|].
    apply wp_bind. unfold s2tt_walk_lock_unlock. apply wp_bind. unfold assert_.
    assert ((s2_sl x <=? level)%Z = false) as -> by lia.
    hnf. exists d. split; [exact R|]. fold x. lia. }
  apply (wp_lock_walk _ _ _ _ I _ _ rd d); try assumption; try (fold x; lia); try side.
  { intros a Sa. unfold upd. destruct (N.eqb_spec a rd); [congruence|apply HL]. }
  intros wi L2 S2 HL2 HS2 W.
  destruct (walk_at _ _ _ _ I _ _ _ _ _ R W) as (f & e & A & Hwl & NT).
  fold x in A, Hwl.
  pose proof (ae_st _ _ _ _ _ _ _ _ _ _ A) as Sl.
  assert (n1 : w_llt wi <> rd) by congruence.
  pose proof (ae_valid _ _ _ _ _ _ _ _ _ _ A) as VE. pose proof (ae_mem _ _ _ _ _ _ _ _ _ _ A) as Ml.
  pose proof (ae_f _ _ _ _ _ _ _ _ _ _ A) as Hf. pose proof (ae_lt _ _ _ _ _ _ _ _ _ _ A) as Hi.
  pose proof (inv_ctx _ _ _ _ I _ _ R) as X. fold x in X. pose proof (ctx_sl _ X) as SL. pose proof (ctx_min _ X) as MIN.
  pose proof (ctx_bits52 _ X) as B52.
  assert (Ha52 : addr < 2 ^ 52) by (eapply N.lt_le_trans; [exact Ha|apply pow2_le; exact B52]).
  pose proof (at_valid c gh G V I x rd d _ _ _ _ _ _ R eq_refl A) as VA.
  apply wp_bind. apply wp_bind, wp_map_slot; [side|].
  apply wp_bind. eapply wp_rd_word; [exact Ml|]. rewrite Hf, (is_assigned_ns_enc _ _ _ VE).
  apply wp_bind.
  assert (Dec : (w_level wi = level /\ exists at_ pa, e = EAsNs at_ pa) \/
    negb (w_level wi =? level)%Z || negb (match e with EAsNs _ _ => true | _ => false end) = true).
  { destruct (Z.eqb_spec (w_level wi) level); [|right; reflexivity]. destruct e; try (right; reflexivity). left. eauto. }
  destruct Dec as [(El & attrs & pa & ->)|Ne].
  - rewrite El, Z.eqb_refl. cbn [negb orb].
    apply wp_bind. eapply wp_wr_word; [exact Ml|]. apply wp_bind.
    set (T' := invals [(vmid x, addr, 4096)] T).
    enough (K : wp (ns_bad rd level) (Ret RMI_SUCCESS) (mkS L2 (upd S2 SLOT_RTT true)
        (upd G (w_llt wi) (mkG (g_state (G (w_llt wi))) (g_ref (G (w_llt wi))) (CW (upd f (w_index wi) s2tte_create_unassigned_ns)))) V T')
      (fun code s0 => wp (ns_bad rd level) (t <- get_table (w_llt wi) ;; top <- s2tt_skip_non_live_entries_ x addr t wi ;;
               unmap_slot SLOT_RTT ;;; Ret (mkRes code top 0 0 0)) s0
        (fun out s1 => wp (ns_bad rd level) (granule_unlock (w_llt wi) ;;; Ret out) s1 Q))).
    { destruct (level =? S2TT_PAGE_LEVEL)%Z; apply wp_tlbi; exact K. }
    apply wp_ret.
    rewrite El in A, VA.
    assert (W' : words_ok (enable_lpa2 x) level (upd f (w_index wi) s2tte_create_unassigned_ns) (upd (ent gh (w_llt wi)) (w_index wi) EUnNs)).
    { eapply words_upd; [exact (ae_words _ _ _ _ _ _ _ _ _ _ A)|intros j nj; reflexivity|reflexivity]. }
    apply wp_bind. eapply wp_get_table; [updsimp; reflexivity|].
    apply wp_bind. eapply (wp_skip _ x rd level); [exact W'| |symmetry; exact El|exact Hi|lia|exact Ha52|].
    { intros j Hj. unfold upd. destruct (N.eqb_spec j (w_index wi)); [exact Logic.I|apply VA; exact Hj]. }
    intros top Ht.
    apply wp_bind, wp_unmap_slot; [side|]. apply wp_ret.
    apply wp_bind, wp_granule_unlock; [side|pose proof (inv_uok _ _ _ _ I (w_llt wi)) as U; unfold uok in *; updsimp; rewrite Sl in *; exact U|].
    apply wp_ret. unfold Q. cbn [x0 x1]. eapply post_ok; [lk|lk| |reflexivity|].
    + eapply geffs_one. eapply (ge_entry _ _ _ _ _ d level _ _ _ f (EAsNs attrs pa) EUnNs); try exact R; try exact A; try reflexivity.
      * pose proof (ae_ok _ _ _ _ _ _ _ _ _ _ A) as [_ B]. split; [exact Logic.I|exact B].
      * exact W'.
      * updsimp. rewrite Sl. reflexivity.
      * intros z nz. updsimp. reflexivity.
    + exists d, attrs, pa, wi. split; [exact R|]. split; [exact Hl|]. split; [exact Hsl|]. split; [split; [exact Hnp|exact Ha]|].
      split; [exact Hal|]. split; [reflexivity|]. split; [exact W|]. split; [exact El|]. split; [|reflexivity].
      unfold set_ent. cbn [ent]. rewrite upd_same. exact Ht.
  - rewrite Ne. apply wp_ret.
    apply wp_bind. eapply wp_get_table; [exact Ml|].
    apply wp_bind. eapply (wp_skip _ x rd (w_level wi)); [exact (ae_words _ _ _ _ _ _ _ _ _ _ A)|exact VA|reflexivity|exact Hi|lia|exact Ha52|].
    intros top Ht.
    apply wp_bind, wp_unmap_slot; [side|]. apply wp_ret.
    apply wp_bind, wp_granule_unlock; [side|apply (inv_uok _ _ _ _ I)|]. apply wp_ret. unfold Q. cbn [x0 x1].
    apply post_fail; try apply pack_nonzero; try reflexivity; try lk. right. exists d, wi. repeat (split; [first [assumption|reflexivity]|]). split; [|exact Ht].
    intro El. rewrite El, Z.eqb_refl in Ne. cbn [negb orb] in Ne. rewrite <- (ae_e _ _ _ _ _ _ _ _ _ _ A). destruct e; try reflexivity; discriminate Ne.
Qed.
End Cmd.
