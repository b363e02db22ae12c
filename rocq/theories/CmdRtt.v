(** RTT_CREATE *)
From Coq Require Import NArith ZArith List Bool Lia ZifyBool ZifyN.
From Verif Require Import Bits S2tte S2tteFacts State Granule Wp RecFields Measure RmiGranule RmiRtt RmiRealm Psci RmiRec
  Inv InvTree InvStep InvStep2 InvStep3 Effects CmdLib.
Import ListNotations.
Local Open Scope N_scope.

(** The descriptor is valid for the MMU *)
Definition hw_valid (e : entry) : bool := match e with EAsRam _ | EAsNs _ _ => true | _ => false end.

(** An RTT command on an entry of level [level] found the walk to end at
    another level or at an entry that it does not accept. *)
Definition walk_fail (gh : ghost) (G : N -> granule) (rd addr : N) (level : Z) (accepts : entry -> bool) (code : N) : Prop :=
  exists d wi, is_rd G rd d /\ addr < 2 ^ ipa_bits (rd_ctx d) /\ walk_res gh (rd_ctx d) rd addr level wi /\
    code = pack_return_code RMI_ERROR_RTT (w_level wi) /\
    (w_level wi = level -> accepts (ent gh (w_llt wi) (w_index wi)) = false).
Definition any_e (e : entry) : bool := false.

Lemma init_words : forall lpa2 l e fb, (l < 3)%Z -> is_table_e e = false -> valid_entry lpa2 l e ->
  fb = match e with
       | EUnEmpty => s2tt_init_const s2tte_create_unassigned_empty
       | EUnRam => s2tt_init_const s2tte_create_unassigned_ram
       | EUnNs => s2tt_init_const s2tte_create_unassigned_ns
       | EUnDestr => s2tt_init_const s2tte_create_unassigned_destroyed
       | EAsEmpty pa => s2tt_init_assigned s2tte_create_assigned_empty lpa2 pa (l + 1)
       | EAsRam pa => s2tt_init_assigned s2tte_create_assigned_ram lpa2 pa (l + 1)
       | EAsDestr pa => s2tt_init_assigned s2tte_create_assigned_destroyed lpa2 pa (l + 1)
       | EAsNs _ pa => s2tt_init_assigned_ns lpa2 (enc lpa2 l e) pa (l + 1)
       | ETable _ => s2tt_init_const 0
       end -> words_ok lpa2 (l + 1) fb (unfold_e (l + 1) e).
Proof.
  intros lpa2 l e fb Hl T VE -> i Hi. destruct e; try discriminate; try reflexivity.
  cbn [unfold_e enc]. unfold s2tt_init_assigned_ns. change (s2tte_create_assigned_ns lpa2 (N.lor attrs (pa_to_s2tte pa lpa2)) l) with (enc lpa2 l (EAsNs attrs pa)).
  rewrite (enc_ns_attrs _ _ _ _ VE). reflexivity.
Qed.

Lemma create_all_ok : forall x l pa, (1 <= l < 3)%Z -> pa_ok (enable_lpa2 x) l pa ->
  block_level_b (l + 1) && s2tte_is_addr_lvl_aligned (enable_lpa2 x) pa (l + 1) = true /\
  forallb (fun i => create_assigned_ok x (pa + i * ms (l + 1)) (l + 1)) idx512 = true.
Proof.
  intros x l pa Hl P.
  assert (B : block_level_b (l + 1) = true) by (unfold block_level_b; change S2TT_MIN_BLOCK_LEVEL with 1%Z; change S2TT_PAGE_LEVEL with 3%Z; lia).
  assert (K : forall i, i < 512 -> s2tte_is_addr_lvl_aligned (enable_lpa2 x) (pa + i * ms (l + 1)) (l + 1) = true).
  { intros i Hi. apply addr_lvl_aligned_iff; [lia|]. apply pa_ok_child; assumption. }
  split.
  - rewrite B. specialize (K 0 eq_refl). rewrite N.mul_0_l, N.add_0_r in K. rewrite K. reflexivity.
  - apply forallb_idx512. intros i Hi. unfold create_assigned_ok. rewrite B, K by assumption. reflexivity.
Qed.

Section Cmd.
Variables (c : cfg) (gh : ghost) (G : N -> granule) (V : N -> bool).
Hypothesis C : cfg_ok c.
Hypothesis I : Inv c gh G V.
Variables (L S : N -> bool) (T : list tlbe).
Hypothesis HL : free L.
Hypothesis HS : free S.

Lemma gran_ok : forall x a, find_granule c a = true -> negb (enable_lpa2 x) && (2 ^ S2TT_MAX_PA_BITS <=? a) = false ->
  pa_ok (enable_lpa2 x) 3 a.
Proof.
  intros x a F B. unfold find_granule in F. apply andb_prop in F. destruct F as [F1 F2].
  unfold is_aligned_granule in F1. apply C in F2. unfold pa_ok, oa_bits. change (2 ^ lvl_lsb 3) with 4096.
  change S2TT_MAX_PA_BITS with 48 in B.
  unfold S2TTE_OA_BITS_LPA2, S2TTE_OA_BITS. destruct (enable_lpa2 x); cbn [negb andb] in B; lia.
Qed.

Definition rtt_create_args (rd rtt addr : N) (level : Z) : Prop := exists d, is_rd G rd d /\ g_state (G rtt) = DELEGATED /\
  (s2_sl (rd_ctx d) < level <= 3)%Z /\ addr < 2 ^ ipa_bits (rd_ctx d) /\ addr mod ms (level - 1) = 0 /\
  (enable_lpa2 (rd_ctx d) = true \/ rtt < 2 ^ 48).
Lemma wp_rtt_create : forall rd rtt addr ulevel, let level := sgn64 ulevel in
  wp False (smc_rtt_create c rd rtt addr ulevel) (mkS L S G V T) (fun r s' =>
    cmd_post c gh G V T r ((r = RMI_ERROR_INPUT /\ ~ rtt_create_args rd rtt addr level) \/ walk_fail gh G rd addr (level - 1) (fun e => negb (is_table_e e)) r)
      (fun _ labs inv => exists d e, is_rd G rd d /\ (s2_sl (rd_ctx d) < level <= 3)%Z /\
         addr < 2 ^ ipa_bits (rd_ctx d) /\ addr mod ms (level - 1) = 0 /\
         labs = [LAttach rd (level - 1) (addr / ms (level - 1)) e rtt] /\
         inv = if hw_valid e then [(vmid (rd_ctx d), addr, 4096)] else []) s').
Proof.
  intros rd rtt addr ulevel level. unfold smc_rtt_create. fold level.
  apply wp_bind, wp_find_lock_two; [assumption|apply (inv_uok _ _ _ _ I)| |].
  2:{ intros L' HL' K. apply wp_ret. apply post_fail; try assumption; try discriminate; try reflexivity.
      - intro z. rewrite HL'. apply HL.
      - left. split; [reflexivity|]. intros (d & (S1 & _) & S2 & _).
        pose proof (i_gran _ _ _ _ I rtt ltac:(rewrite S2; discriminate)). pose proof (i_gran _ _ _ _ I rd ltac:(rewrite S1; discriminate)).
        destruct K as [->|[K|[K|[K|K]]]]; congruence. }
  intros L1 HL1 ne F1 F2 St Sr. cbn [negb].
  apply wp_bind, wp_map_slot; [side|].
  destruct (rd_of_state _ _ _ _ I rd Sr) as (d & R & Ar).
  apply wp_bind. eapply wp_get_rd; [exact Ar|].
  apply wp_bind. eapply (wp_validate_structure _ _ _ _ I); [exact R|]. intros b Hb.
  destruct b; cbn [negb].
  2:{ apply wp_bind, wp_unmap_slot; [side|]. apply wp_bind, wp_granule_unlock; [side|apply (inv_uok _ _ _ _ I)|].
      apply wp_bind, wp_granule_unlock; [side|apply (inv_uok _ _ _ _ I)|]. apply wp_ret.
      apply post_fail; try assumption; try discriminate; try reflexivity.
      - intro z. unpw. addr_cases z; try reflexivity. apply HL.
      - intro z. unpw. addr_cases z; try reflexivity. apply HS.
      - left. split; [reflexivity|]. eapply (bad_rd G); [exact R|]. intros (_ & K1 & K2 & K3 & _).
        assert (false = true) by (apply Hb; auto). discriminate. }
  destruct (proj1 Hb eq_refl) as (Hl & Ha & Hal). clear Hb.
  set (x := rd_ctx d) in *.
  apply wp_bind, wp_unmap_slot; [side|].
  destruct (negb (enable_lpa2 x) && (2 ^ S2TT_MAX_PA_BITS <=? rtt)) eqn:B48.
  { apply wp_bind, wp_granule_unlock; [side|apply (inv_uok _ _ _ _ I)|].
      apply wp_bind, wp_granule_unlock; [side|apply (inv_uok _ _ _ _ I)|]. apply wp_ret.
      apply post_fail; try assumption; try discriminate; try reflexivity.
      - intro z. unpw. addr_cases z; try reflexivity. apply HL.
      - intro z. unpw. addr_cases z; try reflexivity. apply HS.
      - left. split; [reflexivity|]. eapply (bad_rd G); [exact R|]. intros (_ & _ & _ & _ & K). fold x in K.
        change S2TT_MAX_PA_BITS with 48 in B48. destruct K as [K|K]; [rewrite K in B48; discriminate B48|]. lia. }
  pose proof (gran_ok x rtt F1 B48) as Prtt.
  apply (wp_lock_walk _ _ _ _ I _ _ rd d); try assumption; try (fold x; lia); try side.
  { intros a Sa. rewrite HL1. unfold upd.
    destruct (N.eqb_spec a rd); [congruence|]. destruct (N.eqb_spec a rtt); [congruence|apply HL]. }
  intros wi L2 S2 HL2 HS2 W.
  destruct (walk_at _ _ _ _ I _ _ _ _ _ R W) as (f & e & A & Hwl & NT).
  fold x in A, Hwl. set (llt := w_llt wi) in *. set (i := w_index wi) in *. set (l := w_level wi) in *.
  pose proof (ae_st _ _ _ _ _ _ _ _ _ _ A) as Sl.
  assert (n1 : llt <> rd) by congruence. assert (n2 : llt <> rtt) by congruence.
  pose proof (i_del _ _ _ _ I rtt St) as Grtt.
  apply wp_bind. destruct (Z.eqb_spec l (level - 1)) as [El|]; cbn [negb].
  2:{ apply wp_ret. apply wp_bind, wp_granule_unlock; [side|apply (inv_uok _ _ _ _ I)|].
      apply wp_bind, wp_granule_unlock; [side|apply (inv_uok _ _ _ _ I)|]. apply wp_ret.
      apply post_fail; try assumption; try apply pack_nonzero; try reflexivity.
      - intro z. unpw. addr_cases z; try reflexivity. apply HL.
      - intro z. unpw. addr_cases z; try reflexivity. apply HS.
      - right. exists d, wi. repeat (split; [first [assumption|reflexivity]|]). intro K. contradiction. }
  rewrite El in A.
  pose proof (ae_valid _ _ _ _ _ _ _ _ _ _ A) as VE. pose proof (ae_mem _ _ _ _ _ _ _ _ _ _ A) as Ml.
  pose proof (ae_f _ _ _ _ _ _ _ _ _ _ A) as Hf. pose proof (ae_lt _ _ _ _ _ _ _ _ _ _ A) as Hi.
  pose proof (inv_ctx _ _ _ _ I _ _ R) as X. fold x in X. pose proof (ctx_sl _ X) as SL. pose proof (ctx_min _ X) as MIN.
  assert (Nn : addr / ms (level - 1) < ipan x (level - 1)) by (apply num_ipan; [assumption|lia|assumption]).
  apply wp_bind, wp_map_slot; [side|].
  apply wp_bind. eapply wp_rd_word; [exact Ml|]. rewrite Hf.
  apply wp_bind, wp_map_slot; [side|]. cbv zeta.
  rewrite (is_unassigned_empty_enc _ _ _ VE), (is_unassigned_ram_enc _ _ _ VE), (is_unassigned_ns_enc _ _ _ VE),
    (is_unassigned_destroyed_enc _ _ _ VE), (is_assigned_destroyed_enc _ _ _ VE), (is_assigned_empty_enc _ _ _ VE),
    (is_assigned_ram_enc _ _ _ VE), (is_assigned_ns_enc _ _ _ VE), (is_table_enc _ _ _ VE).
  assert (FIN : (level - 1 <? S2TT_PAGE_LEVEL)%Z && (min_starting_level (enable_lpa2 x) <=? level - 1)%Z && is_aligned_granule rtt = true).
  { change S2TT_PAGE_LEVEL with 3%Z. unfold find_granule in F1. apply andb_prop in F1. destruct F1 as [F1 _]. rewrite F1. lia. }
  assert (TAIL : forall G' T' f' fb inv, is_table_e e = false ->
     G' llt = mkG RTT (g_ref (G llt) + 1 - N.b2n (counted e)) (CW f') ->
     G' rtt = mkG RTT (if counted e then 512 else 0) (CW fb) ->
     (forall z, z <> llt -> z <> rtt -> G' z = G z) ->
     words_ok (enable_lpa2 x) (level - 1) f' (upd (ent gh llt) i (ETable rtt)) ->
     words_ok (enable_lpa2 x) (level - 1 + 1) fb (unfold_e (level - 1 + 1) e) ->
     (T' = invals inv T) -> inv = (if hw_valid e then [(vmid x, addr, 4096)] else []) ->
     forall S', (forall z, S' z = upd (upd S2 SLOT_RTT true) SLOT_DELEGATED true z) ->
     wp False (unmap_slot SLOT_DELEGATED ;;; unmap_slot SLOT_RTT ;;; Ret RMI_SUCCESS) (mkS L2 S' G' V T')
       (fun ret s' => wp False (granule_unlock llt ;;; granule_unlock rtt ;;; Ret ret) s' (fun r s' =>
         cmd_post c gh G V T r ((r = RMI_ERROR_INPUT /\ ~ rtt_create_args rd rtt addr level) \/ walk_fail gh G rd addr (level - 1) (fun e => negb (is_table_e e)) r)
      (fun _ labs inv => exists d e, is_rd G rd d /\ (s2_sl (rd_ctx d) < level <= 3)%Z /\
         addr < 2 ^ ipa_bits (rd_ctx d) /\ addr mod ms (level - 1) = 0 /\
         labs = [LAttach rd (level - 1) (addr / ms (level - 1)) e rtt] /\
         inv = if hw_valid e then [(vmid (rd_ctx d), addr, 4096)] else []) s'))).
  { intros G' T' f' fb inv NTe Ga Gb Fr W1 W2 ET Einv S' HS'.
    apply wp_bind, wp_unmap_slot; [side|]. apply wp_bind, wp_unmap_slot; [side|]. apply wp_ret.
    apply wp_bind, wp_granule_unlock; [side| |].
    { unfold uok. rewrite Ga. cbn [g_state g_ref unlocked_inv]. destruct (counted e) eqn:Ce; cbn [N.b2n].
      - pose proof (at_ref _ _ _ _ I x rd d _ _ _ _ _ _ R eq_refl A Ce). lia.
      - pose proof (at_ref_lt _ _ _ _ I x rd d _ _ _ _ _ _ R eq_refl A Ce). lia. }
    apply wp_bind, wp_granule_unlock; [side| |].
    { unfold uok. rewrite Gb. cbn [g_state g_ref unlocked_inv]. destruct (counted e); reflexivity. }
    apply wp_ret. eapply post_ok.
    - intro z. unpw. addr_cases z; try reflexivity. apply HL.
    - intro z. unpw. addr_cases z; try reflexivity. apply HS.
    - eapply geffs_one. eapply (ge_attach _ _ _ _ _ d); try eassumption; try lia.
      intro Asg. destruct e; try (exfalso; apply Asg; reflexivity); destruct VE as [VB _]; unfold block_level in VB; lia.
    - exact ET.
    - exists d, e. fold x. split; [exact R|]. split; [exact Hl|]. split; [exact Ha|]. split; [exact Hal|]. split; [reflexivity|exact Einv]. }
  pose proof (ae_words _ _ _ _ _ _ _ _ _ _ A) as WF.
  destruct e eqn:Ee.
  (* unassigned *)
  1-4: cbn iota; apply wp_bind, wp_bind, wp_wr_mem, wp_bind, wp_atomic_get;
    [side
    |updsimp; pose proof (at_ref_lt _ _ _ _ I x rd d _ _ _ _ _ _ R eq_refl A eq_refl); unfold REFCOUNT_MAX; lia
    |];
    apply wp_bind, wp_set_state; [side|];
    apply wp_bind, wp_assert; [exact FIN|];
    apply wp_bind; eapply wp_wr_word; [updsimp; exact Ml|]; apply wp_ret;
    eapply TAIL with (inv := []); try reflexivity;
      [updsimp; rewrite Sl; cbn [counted N.b2n]; f_equal; apply eq_sym, N.sub_0_r
      |updsimp; rewrite Grtt; reflexivity
      |intros z nz1 nz2; updsimp; reflexivity
      |eapply words_upd; [exact WF|reflexivity|reflexivity]
      |apply init_words; [lia|reflexivity|exact VE|reflexivity]].
  (* assigned, not valid for the MMU *)
  1,3: destruct VE as [VB Vp]; unfold block_level in VB; cbn iota;
    apply wp_bind, wp_bind, wp_assert; [change S2TT_MIN_BLOCK_LEVEL with 1%Z; lia|];
    apply wp_bind, wp_s2tte_pa; [lia| |];
    [exact (is_live_enc _ _ _ (ae_valid _ _ _ _ _ _ _ _ _ _ A))
    |];
    rewrite (pa_enc _ _ _ (ae_valid _ _ _ _ _ _ _ _ _ _ A));
    destruct (create_all_ok x (level - 1) pa ltac:(lia) Vp) as [K1 K2];
    replace (level - 1 + 1)%Z with level in K1, K2 by lia;
    apply wp_bind; unfold s2tt_init_assigned_;
    apply wp_bind, wp_assert; [exact K1|]; apply wp_bind, wp_assert; [exact K2|]; apply wp_wr_mem;
    apply wp_bind, wp_refcount_inc; [side|updsimp; rewrite Grtt; vm_compute; discriminate|];
    apply wp_bind, wp_set_state; [side|];
    apply wp_bind, wp_assert; [exact FIN|];
    apply wp_bind; eapply wp_wr_word; [updsimp; exact Ml|]; apply wp_ret;
    eapply TAIL with (inv := []); try reflexivity;
      [updsimp; rewrite Sl; cbn [counted N.b2n]; f_equal; apply eq_sym, N.add_sub
      |updsimp; rewrite Grtt; reflexivity
      |intros z nz1 nz2; updsimp; reflexivity
      |eapply words_upd; [exact WF|reflexivity|reflexivity]
      |apply init_words; [lia|reflexivity|exact (ae_valid _ _ _ _ _ _ _ _ _ _ A)|replace (level - 1 + 1)%Z with level by lia; reflexivity]].
  - (* assigned RAM *)
    destruct VE as [VB Vp]; unfold block_level in VB; cbn iota.
    apply wp_bind, wp_bind, wp_assert; [change S2TT_MIN_BLOCK_LEVEL with 1%Z; lia|].
    apply wp_bind. eapply wp_wr_word; [exact Ml|]. apply wp_bind, wp_tlbi.
    apply wp_bind, wp_s2tte_pa; [lia| |].
    { exact (is_live_enc _ _ _ (ae_valid _ _ _ _ _ _ _ _ _ _ A)). }
    rewrite (pa_enc _ _ _ (ae_valid _ _ _ _ _ _ _ _ _ _ A)).
    destruct (create_all_ok x (level - 1) pa ltac:(lia) Vp) as [K1 K2].
    replace (level - 1 + 1)%Z with level in K1, K2 by lia.
    apply wp_bind; unfold s2tt_init_assigned_.
    apply wp_bind, wp_assert; [exact K1|]; apply wp_bind, wp_assert; [exact K2|]; apply wp_wr_mem.
    apply wp_bind, wp_refcount_inc; [side|updsimp; rewrite Grtt; vm_compute; discriminate|].
    apply wp_bind, wp_set_state; [side|].
    apply wp_bind, wp_assert; [exact FIN|].
    apply wp_bind; eapply wp_wr_word; [updsimp; reflexivity|]; apply wp_ret.
    eapply TAIL with (inv := [(vmid x, addr, 4096)]); try reflexivity.
    + updsimp. rewrite Sl. cbn [counted N.b2n]. f_equal. apply eq_sym, N.add_sub.
    + updsimp. rewrite Grtt. reflexivity.
    + intros z nz1 nz2. updsimp. reflexivity.
    + eapply words_upd; [exact WF|intros j nj; updsimp; reflexivity|reflexivity].
    + apply init_words; [lia|reflexivity|exact (ae_valid _ _ _ _ _ _ _ _ _ _ A)|replace (level - 1 + 1)%Z with level by lia; reflexivity].
  - (* assigned NS *)
    destruct VE as [VB [Vp _]]; unfold block_level in VB; cbn iota.
    apply wp_bind, wp_bind, wp_assert; [change S2TT_MIN_BLOCK_LEVEL with 1%Z; lia|].
    apply wp_bind. eapply wp_wr_word; [exact Ml|]. apply wp_bind, wp_tlbi.
    apply wp_bind, wp_s2tte_pa; [lia| |].
    { exact (is_live_enc _ _ _ (ae_valid _ _ _ _ _ _ _ _ _ _ A)). }
    rewrite (pa_enc _ _ _ (ae_valid _ _ _ _ _ _ _ _ _ _ A)).
    destruct (create_all_ok x (level - 1) pa ltac:(lia) Vp) as [K1 K2].
    replace (level - 1 + 1)%Z with level in K1, K2 by lia.
    apply wp_bind; unfold s2tt_init_assigned_ns_.
    apply wp_bind, wp_assert; [exact K1|]; apply wp_wr_mem.
    apply wp_bind, wp_atomic_get; [side| |].
    { updsimp. pose proof (at_ref_lt _ _ _ _ I x rd d _ _ _ _ _ _ R eq_refl A eq_refl). unfold REFCOUNT_MAX. lia. }
    apply wp_bind, wp_set_state; [side|].
    apply wp_bind, wp_assert; [exact FIN|].
    apply wp_bind; eapply wp_wr_word; [updsimp; reflexivity|]; apply wp_ret.
    eapply TAIL with (inv := [(vmid x, addr, 4096)]); try reflexivity.
    + updsimp. rewrite Sl. cbn [counted N.b2n]. f_equal. apply eq_sym, N.sub_0_r.
    + updsimp. rewrite Grtt. reflexivity.
    + intros z nz1 nz2. updsimp. reflexivity.
    + eapply words_upd; [exact WF|intros j nj; updsimp; reflexivity|reflexivity].
    + apply init_words; [lia|reflexivity|exact (ae_valid _ _ _ _ _ _ _ _ _ _ A)|replace (level - 1 + 1)%Z with level by lia; reflexivity].
  - (* table *)
    cbn iota. apply wp_bind, wp_ret. apply wp_bind, wp_unmap_slot; [side|]. apply wp_bind, wp_unmap_slot; [side|]. apply wp_ret.
    apply wp_bind, wp_granule_unlock; [side|apply (inv_uok _ _ _ _ I)|].
    apply wp_bind, wp_granule_unlock; [side|apply (inv_uok _ _ _ _ I)|]. apply wp_ret.
    apply post_fail; try assumption; try apply pack_nonzero; try reflexivity.
    + intro z. unpw. addr_cases z; try reflexivity. apply HL.
    + intro z. unpw. addr_cases z; try reflexivity. apply HS.
    + right. exists d, wi. fold l. rewrite El. repeat (split; [first [assumption|reflexivity]|]).
      intros _. fold llt i. rewrite <- (ae_e _ _ _ _ _ _ _ _ _ _ A). reflexivity.
Qed.
End Cmd.
