(** RTT_FOLD *)
From Coq Require Import NArith ZArith List Bool Lia ZifyBool ZifyN.
From Verif Require Import Bits S2tte S2tteFacts State Granule Wp RecFields Measure RmiGranule RmiRtt RmiRealm Psci RmiRec
  Inv InvTree InvStep InvStep2 InvStep3 Effects CmdLib CmdRtt.
Import ListNotations.
Local Open Scope N_scope.

(** Equality of lock and slot functions, by cases *)
Ltac lk :=
  let z := fresh "z" in intro z; unpw;
  repeat match goal with |- context [N.eqb ?p ?q] => destruct (N.eqb_spec p q) end;
  first [ reflexivity | congruence
        | match goal with H : free _ |- _ => apply H end
        | match goal with H : free _ |- _ => symmetry; apply H end
        | match goal with H : free ?f |- ?f _ = _ => rewrite (H _); congruence end
        | exfalso; match goal with A : ?z = ?a, B : ?z = ?b |- _ => rewrite A in B; discriminate B end ].

Section Words.
Variables (lpa2 : bool) (l : Z) (t : table) (e : N -> entry).
Hypothesis W : words_ok lpa2 l t e.
Hypothesis VE : forall i, i < 512 -> valid_entry lpa2 l (e i).

Lemma uniform_all : forall is_x k, (forall e, valid_entry lpa2 l e -> is_x (enc lpa2 l e) = true -> e = k) ->
  table_is_uniform_block t is_x = true -> forall i, i < 512 -> e i = k.
Proof.
  intros is_x k H U i Hi. unfold table_is_uniform_block in U. rewrite forallb_idx512 in U. specialize (U i Hi).
  rewrite W in U by assumption. apply H; auto.
Qed.

Lemma maps_all : forall is_x (K : N -> entry) ns,
  (forall e, valid_entry lpa2 l e -> is_x (enc lpa2 l e) l = true -> exists pa, e = K pa) ->
  (forall pa, valid_entry lpa2 l (K pa) -> s2tte_pa lpa2 (enc lpa2 l (K pa)) l = pa) ->
  (0 <= l - 1 <= 3)%Z ->
  table_maps_block lpa2 t l is_x ns = true ->
  exists pa, s2tte_pa lpa2 (t 0) l = pa /\ pa_ok lpa2 (l - 1) pa /\ (forall i, i < 512 -> e i = K (pa + i * ms l)).
Proof.
  intros is_x K ns H1 H2 Hl M. unfold table_maps_block in M.
  destruct (is_x (t 0) l) eqn:X0; cbn [negb] in M; [|discriminate].
  destruct (s2tte_is_addr_lvl_aligned lpa2 (s2tte_pa lpa2 (t 0) l) (l - 1)) eqn:Al; cbn [negb] in M; [|discriminate].
  apply addr_lvl_aligned_iff in Al; [|lia].
  rewrite forallb_idx512 in M. exists (s2tte_pa lpa2 (t 0) l). split; [reflexivity|]. split; [exact Al|].
  intros i Hi. pose proof (VE 0 eq_refl) as V0. pose proof (VE i Hi) as Vi.
  rewrite (W 0 eq_refl) in *. destruct (H1 _ V0 X0) as (p0 & E0).
  destruct (N.eq_dec i 0) as [->|n].
  - rewrite E0 at 1. f_equal. rewrite E0, H2 by (rewrite <- E0; assumption). lia.
  - specialize (M i Hi). rewrite (proj2 (N.eqb_neq _ _) n) in M. cbn [orb] in M.
    apply andb_prop in M. destruct M as [M _]. apply andb_prop in M. destruct M as [M1 M2].
    rewrite (W i Hi) in M1, M2. destruct (H1 _ Vi M1) as (pi & Ei). apply N.eqb_eq in M2.
    rewrite Ei in M2 at 1. rewrite H2 in M2 by (rewrite <- Ei; assumption). rewrite Ei. f_equal. exact M2.
Qed.

Lemma maps_ns_all : (0 <= l - 1 <= 3)%Z ->
  table_maps_block lpa2 t l s2tte_is_assigned_ns true = true ->
  exists at_ pa, e 0 = EAsNs at_ pa /\ pa_ok lpa2 (l - 1) pa /\ (forall i, i < 512 -> e i = EAsNs at_ (pa + i * ms l)).
Proof.
  intros Hl M. unfold table_maps_block in M.
  destruct (s2tte_is_assigned_ns (t 0) l) eqn:X0; cbn [negb] in M; [|discriminate].
  destruct (s2tte_is_addr_lvl_aligned lpa2 (s2tte_pa lpa2 (t 0) l) (l - 1)) eqn:Al; cbn [negb] in M; [|discriminate].
  apply addr_lvl_aligned_iff in Al; [|lia].
  rewrite forallb_idx512 in M. pose proof (VE 0 eq_refl) as V0. rewrite (W 0 eq_refl) in *.
  rewrite (is_assigned_ns_enc _ _ _ V0) in X0.
  destruct (e 0) as [| | | | | | |at0 p0|] eqn:E0; try discriminate. rewrite (pa_enc _ _ _ V0) in *.
  exists at0, p0. split; [reflexivity|]. split; [exact Al|]. intros i Hi. pose proof (VE i Hi) as Vi.
  destruct (N.eq_dec i 0) as [->|n].
  - rewrite E0. f_equal. lia.
  - specialize (M i Hi). rewrite (proj2 (N.eqb_neq _ _) n) in M. cbn [orb negb] in M.
    apply andb_prop in M. destruct M as [M M3]. apply andb_prop in M. destruct M as [M1 M2].
    rewrite (W i Hi) in M1, M2, M3. rewrite (is_assigned_ns_enc _ _ _ Vi) in M1.
    destruct (e i) as [| | | | | | |ati pi|] eqn:Ei; try discriminate. rewrite (pa_enc _ _ _ Vi) in M2.
    rewrite (enc_ns_attrs _ _ _ _ V0), (enc_ns_attrs _ _ _ _ Vi) in M3.
    apply N.eqb_eq in M2. apply N.eqb_eq in M3. congruence.
Qed.

Lemma wp_maps : forall E x is_x ns s (Q : bool -> state -> Prop), enable_lpa2 x = lpa2 ->
  (forall e, valid_entry lpa2 l e -> is_x (enc lpa2 l e) l = true -> s2tte_has_pa (enc lpa2 l e) l = true) ->
  (min_starting_level lpa2 < l <= 3)%Z ->
  (forall b, (b = true -> table_maps_block lpa2 t l is_x ns = true) -> Q b s) ->
  wp E (table_maps_block_ x t l is_x ns) s Q.
Proof.
  intros E x is_x ns s Q Ex HP Hl HQ. unfold table_maps_block_. rewrite Ex. cbv zeta.
  apply wp_bind, wp_assert; [change S2TT_PAGE_LEVEL with 3%Z; lia|].
  apply wp_bind, wp_assert.
  { apply forallb_idx512. intros i Hi. rewrite (W i Hi). destruct (is_x _ _) eqn:B; [|reflexivity].
    rewrite (HP _ (VE i Hi) B). reflexivity. }
  destruct (is_x (t 0) l).
  - apply wp_bind, wp_assert; [lia|]. apply wp_ret, HQ. auto.
  - apply wp_ret, HQ. discriminate.
Qed.
End Words.

Section Cmd.
Variables (c : cfg) (gh : ghost) (G : N -> granule) (V : N -> bool).
Hypothesis C : cfg_ok c.
Hypothesis I : Inv c gh G V.

Lemma wp_fold_parent : forall E x rd d n n' a i f b level last L S T (Q : N + N -> state -> Prop) tb,
  is_rd G rd d -> x = rd_ctx d -> (s2_sl x < level <= 3)%Z ->
  at_entry gh G x rd (level - 1) n a i f (ETable b) ->
  own gh b = Some (rd, level, n') -> a <> b -> L a = true -> L b = true -> g_mem (G b) = CW tb ->
  (forall code, (code = pack_return_code RMI_ERROR_RTT level \/ code = pack_return_code RMI_ERROR_RTT last) ->
     Q (inr code) (mkS L S G V T)) ->
  (forall e' G', is_table_e e' = false -> valid_entry (enable_lpa2 x) (level - 1) e' ->
     (forall j, j < 512 -> ent gh b j = unfold_e level e' j) ->
     G' a = mkG RTT (g_ref (G a) - 1 + N.b2n (counted e')) (CW f) -> G' b = mkG RTT 0 (CW tb) ->
     (forall z, z <> a -> z <> b -> G' z = G z) ->
     Q (inl (enc (enable_lpa2 x) (level - 1) e')) (mkS L S G' V T)) ->
  wp E (fold_parent_s2tte x a b tb level last) (mkS L S G V T) Q.
Proof.
  intros * R Ex Hl A O nab La Lb Mb QE QO. subst x.
  pose proof (inv_ctx _ _ _ _ I _ _ R) as X. pose proof (ctx_sl _ X) as SL. pose proof (ctx_min _ X) as MIN.
  pose proof (inv_own _ _ _ _ I _ _ _ _ _ O R) as TB. set (x := rd_ctx d) in *.
  destruct (t_words _ _ _ _ _ _ _ TB) as (tb' & Mb' & W). assert (tb' = tb) by congruence. subst tb'. clear Mb'.
  assert (VE : forall i, i < 512 -> valid_entry (enable_lpa2 x) level (ent gh b i))
    by (intros j Hj; apply (t_entries _ _ _ _ _ _ _ TB j Hj)).
  pose proof (t_ref _ _ _ _ _ _ _ TB) as RB. pose proof (t_state _ _ _ _ _ _ _ TB) as SB.
  pose proof (ae_st _ _ _ _ _ _ _ _ _ _ A) as SA. pose proof (ae_mem _ _ _ _ _ _ _ _ _ _ A) as MA.
  pose proof (at_ref _ _ _ _ I x rd d _ _ _ _ _ _ R eq_refl A eq_refl) as RA.
  unfold fold_parent_s2tte. apply wp_bind, wp_rd_ref.
  destruct (N.eqb_spec (g_ref (G b)) 0) as [R0|R0].
  - assert (PUT : forall e' w, counted e' = false -> is_table_e e' = false -> valid_entry (enable_lpa2 x) (level - 1) e' ->
       (forall j, j < 512 -> ent gh b j = unfold_e level e' j) -> w = enc (enable_lpa2 x) (level - 1) e' ->
       wp E (atomic_granule_put a ;;; Ret (inl w)) (mkS L S G V T) Q).
    { intros e' w Ce Te Ve He ->. apply wp_bind, wp_atomic_put; [assumption|lia|]. apply wp_ret, QO; try assumption.
      - rewrite upd_same, SA, MA, Ce. cbn [N.b2n]. f_equal. lia.
      - rewrite upd_other by congruence. destruct (G b); cbn in *. congruence.
      - intros z nz1 nz2. rewrite upd_other by assumption. reflexivity. }
    assert (UNI : forall is_x e', (forall e, valid_entry (enable_lpa2 x) level e -> is_x (enc (enable_lpa2 x) level e) = match e' with EUnDestr => match e with EUnDestr => true | _ => false end | EUnEmpty => match e with EUnEmpty => true | _ => false end | EUnRam => match e with EUnRam => true | _ => false end | EUnNs => match e with EUnNs => true | _ => false end | _ => false end) ->
       table_is_uniform_block tb is_x = true -> forall j, j < 512 -> ent gh b j = e').
    { intros is_x e' H U. eapply (uniform_all _ _ _ _ W VE); [|exact U]. intros e0 V0 B. rewrite (H _ V0) in B.
      destruct e', e0; try discriminate; reflexivity. }
    destruct (table_is_uniform_block tb s2tte_is_unassigned_destroyed) eqn:U1.
    { apply (PUT EUnDestr); try reflexivity; try exact Logic.I. eapply (UNI _ EUnDestr); [|exact U1]. intros e0 V0. apply is_unassigned_destroyed_enc, V0. }
    destruct (table_is_uniform_block tb s2tte_is_unassigned_empty) eqn:U2.
    { apply (PUT EUnEmpty); try reflexivity; try exact Logic.I. eapply (UNI _ EUnEmpty); [|exact U2]. intros e0 V0. apply is_unassigned_empty_enc, V0. }
    destruct (table_is_uniform_block tb s2tte_is_unassigned_ram) eqn:U3.
    { apply (PUT EUnRam); try reflexivity; try exact Logic.I. eapply (UNI _ EUnRam); [|exact U3]. intros e0 V0. apply is_unassigned_ram_enc, V0. }
    destruct (table_is_uniform_block tb s2tte_is_unassigned_ns) eqn:U4.
    { apply (PUT EUnNs); try reflexivity; try exact Logic.I. eapply (UNI _ EUnNs); [|exact U4]. intros e0 V0. apply is_unassigned_ns_enc, V0. }
    apply wp_bind. eapply (wp_maps _ _ _ _ W VE); [reflexivity| |lia|].
    { intros e0 V0 B. pose proof (is_live_enc _ _ _ V0) as Lv. unfold s2tte_is_live in Lv. rewrite Lv.
      rewrite (is_assigned_ns_enc _ _ _ V0) in B. destruct e0; try discriminate; reflexivity. }
    intros m Hm. destruct m; [|apply wp_ret, QE; auto].
    change S2TT_MIN_BLOCK_LEVEL with 1%Z. destruct (Z.leb_spec level 1); [apply wp_ret, QE; auto|].
    destruct (maps_ns_all _ _ _ _ W VE ltac:(lia) (Hm eq_refl)) as (at_ & pa & E0 & Pk & All).
    apply wp_bind. unfold s2tte_create_assigned_ns_. apply wp_bind, wp_assert.
    { unfold block_level_b. change S2TT_MIN_BLOCK_LEVEL with 1%Z. change S2TT_PAGE_LEVEL with 3%Z. lia. }
    apply wp_ret. pose proof (VE 0 eq_refl) as V0. rewrite E0 in V0. destruct V0 as (_ & _ & V0).
    apply (PUT (EAsNs at_ pa)); try reflexivity.
    + cbn. unfold block_level. split; [lia|]. split; assumption.
    + intros j Hj. apply All, Hj.
    + rewrite (W 0 eq_refl), E0. apply create_assigned_ns_refold; [eapply pa_ok_page; [|exact Pk]; lia|exact V0|lia].
  - destruct (N.eqb_spec (g_ref (G b)) S2TTES_PER_S2TT) as [R1|R1]; [|apply wp_ret, QE; auto].
    change S2TT_MIN_BLOCK_LEVEL with 1%Z. destruct (Z.leb_spec level 1); [apply wp_ret, QE; auto|].
    change S2TTES_PER_S2TT with 512 in *.
    assert (C0 : counted (ent gh b 0) = true) by (apply cnt_512; [congruence|reflexivity]).
    apply wp_bind, wp_s2tte_pa; [lia| |].
    { rewrite (W 0 eq_refl). pose proof (is_live_enc _ _ _ (VE 0 eq_refl)) as Lv. unfold s2tte_is_live in Lv. rewrite Lv.
      destruct (ent gh b 0); try discriminate; reflexivity. }
    cbv zeta.
    assert (DEC : forall (K : N -> entry) (create : bool -> N -> Z -> N) is_x,
       (forall e pa, e = K pa -> counted e = true /\ is_table_e e = false) ->
       (forall pa, valid_entry (enable_lpa2 x) level (K pa) -> s2tte_pa (enable_lpa2 x) (enc (enable_lpa2 x) level (K pa)) level = pa) ->
       (forall l j pa, unfold_e l (K pa) j = K (pa + j * ms l)) ->
       (forall l pa, block_level l -> pa_ok (enable_lpa2 x) l pa -> valid_entry (enable_lpa2 x) l (K pa)) ->
       (forall l pa, create (enable_lpa2 x) pa l = enc (enable_lpa2 x) l (K pa)) ->
       (forall e, valid_entry (enable_lpa2 x) level e -> is_x (enc (enable_lpa2 x) level e) level = true -> exists pa, e = K pa) ->
       table_maps_block (enable_lpa2 x) tb level is_x false = true ->
       wp E (assert_ (create_assigned_ok x (s2tte_pa (enable_lpa2 x) (tb 0) level) (level - 1)) ;;;
        granule_refcount_dec b 512 ;;;
        Ret (inl (create (enable_lpa2 x) (s2tte_pa (enable_lpa2 x) (tb 0) level) (level - 1)%Z))) (mkS L S G V T) Q).
    { intros K create is_x K1 K2 K3 K4 K5 K6 M.
      destruct (maps_all _ _ _ _ W VE is_x K false K6 K2 ltac:(lia) M) as (pa & P0 & Pk & All). rewrite P0.
      apply wp_bind, wp_assert.
      { unfold create_assigned_ok, block_level_b. change S2TT_MIN_BLOCK_LEVEL with 1%Z. change S2TT_PAGE_LEVEL with 3%Z.
        assert (Al : s2tte_is_addr_lvl_aligned (enable_lpa2 x) pa (level - 1) = true) by (apply addr_lvl_aligned_iff; [lia|exact Pk]).
        rewrite Al. lia. }
      apply wp_bind, wp_refcount_dec; [assumption|lia|]. apply wp_ret. rewrite K5. apply QO.
      - apply (K1 _ _ eq_refl).
      - apply K4; [unfold block_level; lia|exact Pk].
      - intros j Hj. rewrite K3. apply All, Hj.
      - rewrite upd_other by assumption. destruct (K1 _ pa eq_refl) as [-> _]. cbn [N.b2n].
        assert (E1 : G a = mkG RTT (g_ref (G a)) (CW f)) by (destruct (G a); cbn in *; congruence).
        rewrite E1 at 1. f_equal. lia.
      - rewrite upd_same, SB, Mb, R1. reflexivity.
      - intros z nz1 nz2. rewrite upd_other by assumption. reflexivity. }
    assert (HP : forall e0, valid_entry (enable_lpa2 x) level e0 ->
       s2tte_has_pa (enc (enable_lpa2 x) level e0) level = match e0 with EUnEmpty | EUnRam | EUnDestr | EUnNs => false | _ => true end)
      by (intros e0 V0; exact (is_live_enc _ _ _ V0)).
    apply wp_bind. eapply (wp_maps _ _ _ _ W VE); [reflexivity| |lia|].
    { intros e0 V0 B. rewrite (HP _ V0). rewrite (is_assigned_empty_enc _ _ _ V0) in B. destruct e0; try discriminate; reflexivity. }
    intros m1 Hm1. destruct m1.
    { eapply (DEC EAsEmpty); [intros ? ? ->; split; reflexivity|intros pa V0; exact (pa_enc _ _ _ V0)|reflexivity|cbn; auto|reflexivity| |exact (Hm1 eq_refl)].
      intros e0 V0 B. rewrite (is_assigned_empty_enc _ _ _ V0) in B. destruct e0; try discriminate. eauto. }
    apply wp_bind. eapply (wp_maps _ _ _ _ W VE); [reflexivity| |lia|].
    { intros e0 V0 B. rewrite (HP _ V0). rewrite (is_assigned_ram_enc _ _ _ V0) in B. destruct e0; try discriminate; reflexivity. }
    intros m2 Hm2. destruct m2.
    { eapply (DEC EAsRam); [intros ? ? ->; split; reflexivity|intros pa V0; exact (pa_enc _ _ _ V0)|reflexivity|cbn; auto|reflexivity| |exact (Hm2 eq_refl)].
      intros e0 V0 B. rewrite (is_assigned_ram_enc _ _ _ V0) in B. destruct e0; try discriminate. eauto. }
    apply wp_bind. eapply (wp_maps _ _ _ _ W VE); [reflexivity| |lia|].
    { intros e0 V0 B. rewrite (HP _ V0). rewrite (is_assigned_destroyed_enc _ _ _ V0) in B. destruct e0; try discriminate; reflexivity. }
    intros m3 Hm3. destruct m3.
    { eapply (DEC EAsDestr); [intros ? ? ->; split; reflexivity|intros pa V0; exact (pa_enc _ _ _ V0)|reflexivity|cbn; auto|reflexivity| |exact (Hm3 eq_refl)].
      intros e0 V0 B. rewrite (is_assigned_destroyed_enc _ _ _ V0) in B. destruct e0; try discriminate. eauto. }
    apply wp_ret, QE. auto.
Qed.

Variables (L S : N -> bool) (T : list tlbe).
Hypothesis HL : free L.
Hypothesis HS : free S.

Lemma wp_rtt_fold : forall rd addr ulevel, let level := sgn64 ulevel in
  wp False (smc_rtt_fold c rd addr ulevel) (mkS L S G V T) (fun r s' =>
    cmd_post c gh G V T (x0 r)
      (x0 r = RMI_ERROR_INPUT \/ walk_fail gh G rd addr (level - 1) any_e (x0 r) \/ x0 r = pack_return_code RMI_ERROR_RTT level)
      (fun _ labs inv => exists d e', is_rd G rd d /\ (s2_sl (rd_ctx d) < level <= 3)%Z /\
         addr < 2 ^ ipa_bits (rd_ctx d) /\ addr mod ms (level - 1) = 0 /\
         labs = [LFold rd (level - 1) (addr / ms (level - 1)) e' (x1 r)] /\
         inv = [(vmid (rd_ctx d), addr, if hw_valid e' then ms 2 else 4096)]) s').
Proof.
  intros rd addr ulevel level. unfold smc_rtt_fold. fold level.
  apply wp_bind, wp_find_lock; [apply HL|apply (inv_uok _ _ _ _ I)| |].
  2:{ intros L' HL' _. apply wp_ret. apply post_fail; try assumption; try discriminate; try reflexivity; auto.
      intro z. rewrite HL'. apply HL. }
  intros F Sr. cbn [negb].
  apply wp_bind, wp_map_slot; [side|].
  destruct (rd_of_state _ _ _ _ I rd Sr) as (d & R & Ar).
  apply wp_bind. eapply wp_get_rd; [exact Ar|].
  apply wp_bind. eapply (wp_validate_structure _ _ _ _ I); [exact R|]. intros b Hb.
  destruct b; cbn [negb].
  2:{ apply wp_bind, wp_unmap_slot; [side|]. apply wp_bind, wp_granule_unlock; [side|apply (inv_uok _ _ _ _ I)|]. apply wp_ret.
      apply post_fail; try assumption; try discriminate; try reflexivity; auto.
      - intro z. unpw. addr_cases z; try reflexivity. apply HL.
      - intro z. unpw. addr_cases z; try reflexivity. apply HS. }
  destruct (proj1 Hb eq_refl) as (Hl & Ha & Hal). clear Hb.
  set (x := rd_ctx d) in *.
  apply wp_bind, wp_unmap_slot; [side|].
  apply (wp_lock_walk _ _ _ _ I _ _ rd d); try assumption; try (fold x; lia); try side.
  { intros a Sa. unfold upd. destruct (N.eqb_spec a rd); [congruence|apply HL]. }
  intros wi L2 S2 HL2 HS2 W.
  destruct (walk_at _ _ _ _ I _ _ _ _ _ R W) as (f & e & A & Hwl & NT).
  fold x in A, Hwl. set (llt := w_llt wi) in *. set (i := w_index wi) in *. set (l := w_level wi) in *.
  pose proof (ae_st _ _ _ _ _ _ _ _ _ _ A) as Sl.
  assert (n1 : llt <> rd) by congruence.
  apply wp_bind. destruct (Z.eqb_spec l (level - 1)) as [El|]; cbn [negb].
  2:{ apply wp_ret. apply wp_bind, wp_granule_unlock; [side|apply (inv_uok _ _ _ _ I)|]. apply wp_ret.
      apply post_fail; try assumption; try apply pack_nonzero; try reflexivity.
      - intro z. unpw. addr_cases z; try reflexivity. apply HL.
      - intro z. unpw. addr_cases z; try reflexivity. apply HS.
      - right. left. exists d, wi. repeat (split; [first [assumption|reflexivity]|]). reflexivity. }
  rewrite El in A.
  pose proof (ae_valid _ _ _ _ _ _ _ _ _ _ A) as VE. pose proof (ae_mem _ _ _ _ _ _ _ _ _ _ A) as Ml.
  pose proof (ae_f _ _ _ _ _ _ _ _ _ _ A) as Hf. pose proof (ae_lt _ _ _ _ _ _ _ _ _ _ A) as Hi.
  pose proof (inv_ctx _ _ _ _ I _ _ R) as X. fold x in X. pose proof (ctx_sl _ X) as SL. pose proof (ctx_min _ X) as MIN.
  assert (FAIL : forall code S' L', (forall z, L' z = L2 z) -> (forall z, S' z = upd S2 SLOT_RTT true z) ->
     code <> RMI_SUCCESS ->
     (code = RMI_ERROR_INPUT \/ walk_fail gh G rd addr (level - 1) any_e code \/ code = pack_return_code RMI_ERROR_RTT level) ->
     wp False (unmap_slot SLOT_RTT ;;; Ret (res0 code)) (mkS L' S' G V T) (fun out s' =>
       wp False (granule_unlock llt ;;; Ret out) s' (fun r s' =>
    cmd_post c gh G V T (x0 r)
      (x0 r = RMI_ERROR_INPUT \/ walk_fail gh G rd addr (level - 1) any_e (x0 r) \/ x0 r = pack_return_code RMI_ERROR_RTT level)
      (fun _ labs inv => exists d e', is_rd G rd d /\ (s2_sl (rd_ctx d) < level <= 3)%Z /\
         addr < 2 ^ ipa_bits (rd_ctx d) /\ addr mod ms (level - 1) = 0 /\
         labs = [LFold rd (level - 1) (addr / ms (level - 1)) e' (x1 r)] /\
         inv = [(vmid (rd_ctx d), addr, if hw_valid e' then ms 2 else 4096)]) s'))).
  { intros code S' L' HL' HS' nz HF. apply wp_bind, wp_unmap_slot; [side|]. apply wp_ret.
    apply wp_bind, wp_granule_unlock; [side|apply (inv_uok _ _ _ _ I)|]. apply wp_ret.
    apply post_fail; try assumption; try reflexivity.
    - intro z. unpw. addr_cases z; try reflexivity. apply HL.
    - intro z. unpw. addr_cases z; try reflexivity. apply HS. }
  apply wp_bind, wp_map_slot; [side|].
  apply wp_bind. eapply wp_rd_word; [exact Ml|]. rewrite Hf.
  rewrite (is_table_enc _ _ _ VE). apply wp_bind.
  destruct e as [| | | | | | | |b] eqn:Ee; cbn [negb];
    try (apply wp_ret, FAIL; [reflexivity|reflexivity|apply pack_nonzero|]; right; left; exists d, wi; fold l; rewrite El; (repeat (split; [first [assumption|reflexivity]|]); reflexivity)).
  apply wp_bind, wp_s2tte_pa; [lia|exact (is_live_enc _ _ _ VE)|]. rewrite (pa_enc _ _ _ VE).
  destruct (own_child _ _ _ _ I _ _ _ _ _ b (ae_own _ _ _ _ _ _ _ _ _ _ A) Hi (eq_sym (ae_e _ _ _ _ _ _ _ _ _ _ A))) as [Ob Lt].
  replace (level - 1 + 1)%Z with level in Ob by lia.
  pose proof (own_rtt _ _ _ _ I _ _ _ _ Ob) as Sb.
  assert (nb : b <> llt).
  { intros ->. rewrite (ae_own _ _ _ _ _ _ _ _ _ _ A) in Ob. injection Ob. intros _ Eq. lia. }
  assert (nrd : b <> rd) by congruence.
  apply wp_bind, wp_find_lock; [side|apply (inv_uok _ _ _ _ I)| |].
  2:{ intros L' _ [N1|N1]; [|contradiction]. exfalso.
      rewrite (i_gran _ _ _ _ I b) in N1; [discriminate|rewrite Sb; discriminate]. }
  intros Fb _. apply wp_bind, wp_assert; [reflexivity|].
  apply wp_bind, wp_map_slot; [side|].
  destruct (own_words _ _ _ _ I _ _ _ _ _ Ob R) as (tb & Mb & Wb). fold x in Wb.
  apply wp_bind. eapply wp_get_table; [exact Mb|].
  apply wp_bind. eapply (wp_fold_parent _ x rd d); try eassumption; try reflexivity; try side; try congruence.
  - intros code Hc. apply wp_bind, wp_ret.
    apply wp_bind, wp_unmap_slot; [side|]. apply wp_bind, wp_granule_unlock; [side|apply (inv_uok _ _ _ _ I)|]. apply wp_ret.
    apply FAIL.
    + lk.
    + lk.
    + destruct Hc as [-> | ->]; apply pack_nonzero.
    + destruct Hc as [-> | ->]; [auto|]. right. left. exists d, wi. fold l. rewrite El. repeat (split; [first [assumption|reflexivity]|]). reflexivity.
  - intros e' G1 Te Ve He Ga Gb Fr. apply wp_bind.
    assert (K : forall T' inv, T' = invals inv T -> inv = [(vmid x, addr, if hw_valid e' then ms 2 else 4096)] ->
      wp False (wr_word llt i (enc (enable_lpa2 x) (level - 1) e') ;;;
                       granule_memzero_mapped b ;;;
                       granule_set_state b DELEGATED ;;;
                       Ret (mkRes RMI_SUCCESS b 0 0 0))
        (mkS (upd L2 b true) (upd (upd S2 SLOT_RTT true) SLOT_RTT2 true)
             (upd G1 llt (mkG (g_state (G1 llt)) (g_ref (G1 llt)) (CW (upd f i 0)))) V T')
        (fun out s' => wp False (unmap_slot SLOT_RTT2 ;;; granule_unlock b ;;; Ret out) s'
        (fun out s' => wp False (unmap_slot SLOT_RTT ;;; Ret out) s'
        (fun out s' => wp False (granule_unlock llt ;;; Ret out) s' (fun r s' =>
    cmd_post c gh G V T (x0 r)
      (x0 r = RMI_ERROR_INPUT \/ walk_fail gh G rd addr (level - 1) any_e (x0 r) \/ x0 r = pack_return_code RMI_ERROR_RTT level)
      (fun _ labs inv => exists d e', is_rd G rd d /\ (s2_sl (rd_ctx d) < level <= 3)%Z /\
         addr < 2 ^ ipa_bits (rd_ctx d) /\ addr mod ms (level - 1) = 0 /\
         labs = [LFold rd (level - 1) (addr / ms (level - 1)) e' (x1 r)] /\
         inv = [(vmid (rd_ctx d), addr, if hw_valid e' then ms 2 else 4096)]) s'))))).
    { intros T' inv ET Einv.
      apply wp_bind. eapply wp_wr_word; [updsimp; reflexivity|].
      apply wp_bind, wp_memzero_mapped. apply wp_bind, wp_set_state; [side|]. apply wp_ret.
      apply wp_bind, wp_unmap_slot; [side|].
      apply wp_bind, wp_granule_unlock; [side|unfold uok; updsimp; rewrite Gb; reflexivity|]. apply wp_ret.
      apply wp_bind, wp_unmap_slot; [side|]. apply wp_ret.
      apply wp_bind, wp_granule_unlock; [side| |].
      { unfold uok. updsimp. rewrite Ga. cbn [g_state g_ref unlocked_inv].
        pose proof (at_ref _ _ _ _ I x rd d _ _ _ _ _ _ R eq_refl A eq_refl).
        destruct (counted e'); cbn [N.b2n]; lia. }
      apply wp_ret. eapply post_ok.
      - intro z. unpw. addr_cases z; try reflexivity. apply HL.
      - intro z. unpw. addr_cases z; try reflexivity. apply HS.
      - eapply geffs_one. eapply (ge_fold _ _ _ _ _ d _ _ _ _ _ _ e' (upd (upd f i 0) i (enc (enable_lpa2 x) (level - 1) e'))); try eassumption.
        + intros j Hj. replace (level - 1 + 1)%Z with level by lia. apply He, Hj.
        + eapply words_upd; [exact (ae_words _ _ _ _ _ _ _ _ _ _ A)|intros j nj; updsimp; reflexivity|reflexivity].
        + updsimp. rewrite Ga. reflexivity.
        + updsimp. rewrite Gb. reflexivity.
        + intros z nz1 nz2. updsimp. apply Fr; assumption.
      - exact ET.
      - exists d, e'. split; [exact R|]. split; [exact Hl|]. split; [exact Ha|]. split; [exact Hal|]. split; [reflexivity|exact Einv]. }
    apply wp_bind. eapply wp_wr_word; [rewrite Ga; reflexivity|].
    rewrite (is_assigned_ram_enc _ _ _ Ve), (is_assigned_ns_enc _ _ _ Ve).
    apply wp_bind. destruct e'; try discriminate; cbn [orb]; apply wp_tlbi; (eapply K; [|reflexivity]; reflexivity).
Qed.
End Cmd.
