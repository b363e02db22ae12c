(** RTT_DESTROY, RTT_MAP_UNPROTECTED, RTT_UNMAP_UNPROTECTED and RTT_READ_ENTRY *)
From Coq Require Import NArith ZArith List Bool Lia ZifyBool ZifyN.
From Verif Require Import Bits S2tte S2tteFacts State Granule Wp RecFields Measure RmiGranule RmiRtt RmiRealm Psci RmiRec
  Inv InvTree InvStep InvStep2 InvStep3 Effects CmdLib CmdRtt CmdFold.
Import ListNotations.
Local Open Scope N_scope.

(** Entries that keep a table from being destroyed or refer to memory *)
Definition live_e (e : entry) : bool := match e with EUnEmpty | EUnRam | EUnDestr | EUnNs => false | _ => true end.

(** [top] is the first address after [addr] that a live entry of the table
    translates, or the end of the table *)
Definition top_ok (e : N -> entry) (l : Z) (i addr top : N) : Prop :=
  if live_e (e i) then top = addr
  else exists j, i < j <= 512 /\ (forall k, i <= k < j -> live_e (e k) = false) /\
    (j < 512 -> live_e (e j) = true) /\ top = addr / ms l * ms l + (j - i) * ms l.

Lemma skip_scan_spec : forall t l (e : N -> entry), (forall i, i < 512 -> s2tte_is_live (t i) l = live_e (e i)) ->
  forall n i, i <= 512 -> 512 <= i + N.of_nat n ->
  let j := skip_scan n t l i in i <= j <= 512 /\ (forall k, i <= k < j -> live_e (e k) = false) /\ (j < 512 -> live_e (e j) = true).
Proof.
  intros t l e H n. induction n as [|n IH]; intros i H1 H2; cbn [skip_scan].
  - split; [lia|]. split; intros; lia.
  - change S2TTES_PER_S2TT with 512. destruct (N.ltb_spec i 512).
    + rewrite H by assumption. destruct (live_e (e i)) eqn:B.
      * split; [lia|]. split; [intros; lia|auto].
      * destruct (IH (i + 1) ltac:(lia) ltac:(lia)) as (J1 & J2 & J3). split; [lia|]. split; [|assumption].
        intros k Hk. destruct (N.eq_dec k i) as [->|]; [assumption|]. apply J2. lia.
    + split; [lia|]. split; intros; lia.
Qed.

Lemma ldiff_align : forall a l, N.ldiff a (ms l - 1) = a / ms l * ms l.
Proof.
  intros a l. unfold s2tte_map_size. rewrite N.sub_1_r, <- N.ones_equiv, N.ldiff_ones_r, N.shiftr_div_pow2, N.shiftl_mul_pow2. reflexivity.
Qed.

Lemma ms_le : forall l, (-1 <= l)%Z -> ms l <= 2 ^ 48.
Proof. intros l H. unfold s2tte_map_size, lvl_lsb. apply pow2_le. lia. Qed.

Lemma wp_skip : forall E x (rd : N) l addr t e wi s (Q : N -> state -> Prop),
  words_ok (enable_lpa2 x) l t e -> (forall i, i < 512 -> valid_entry (enable_lpa2 x) l (e i)) ->
  l = w_level wi -> w_index wi < 512 -> (min_starting_level (enable_lpa2 x) <= l <= 3)%Z -> addr < 2 ^ 52 ->
  (forall top, top_ok e l (w_index wi) addr top -> Q top s) ->
  wp E (s2tt_skip_non_live_entries_ x addr t wi) s Q.
Proof.
  intros E x rd l addr t e wi s Q W VE -> Hi Hl Ha HQ. unfold s2tt_skip_non_live_entries_.
  set (l := w_level wi) in *. set (i := w_index wi) in *.
  apply wp_bind, wp_assert; [change S2TTES_PER_S2TT with 512; change S2TT_PAGE_LEVEL with 3%Z; lia|].
  apply wp_ret. apply HQ.
  assert (LV : forall i, i < 512 -> s2tte_is_live (t i) l = live_e (e i)).
  { intros k Hk. rewrite W by assumption. apply is_live_enc, VE, Hk. }
  unfold s2tt_skip_non_live_entries. rewrite (LV i Hi). unfold top_ok. destruct (live_e (e i)) eqn:B.
  - unfold wrap64. apply N.mod_small. change (2 ^ 64) with (2 ^ 52 * 4096). lia.
  - pose proof (skip_scan_spec t l e LV 512 (i + 1) ltac:(lia) ltac:(lia)) as J. cbv zeta in J.
    set (j := skip_scan 512 t l (i + 1)) in *. destruct J as (J1 & J2 & J3). exists j. split; [lia|].
    split; [|split; [assumption|]].
    + intros k Hk. destruct (N.eq_dec k i) as [->|]; [assumption|apply J2; lia].
    + cbv zeta. rewrite ldiff_align. unfold wrap64. apply N.mod_small.
      assert (-1 <= l)%Z.
      { unfold min_starting_level, S2TT_MIN_STARTING_LEVEL_LPA2, S2TT_MIN_STARTING_LEVEL in Hl. destruct (enable_lpa2 x); lia. }
      pose proof (ms_le l H) as M. pose proof (ms_pos l). pose proof (N.mul_div_le addr (ms l) ltac:(lia)).
      assert ((j - i) * ms l <= 512 * 2 ^ 48) by (apply N.mul_le_mono; lia).
      change (2 ^ 64) with (2 ^ 52 * 4096). change (512 * 2 ^ 48) with (2 ^ 52 * 32) in *. lia.
Qed.

Definition walk_fail_top (gh : ghost) (G : N -> granule) (rd addr : N) (level : Z) (accepts : entry -> bool) (code top : N) : Prop :=
  exists d wi, is_rd G rd d /\ addr < 2 ^ ipa_bits (rd_ctx d) /\ walk_res gh (rd_ctx d) rd addr level wi /\
    code = pack_return_code RMI_ERROR_RTT (w_level wi) /\
    (w_level wi = level -> accepts (ent gh (w_llt wi) (w_index wi)) = false) /\
    top_ok (ent gh (w_llt wi)) (w_level wi) (w_index wi) addr top.

Section Cmd.
Variables (c : cfg) (gh : ghost) (G : N -> granule) (V : N -> bool).
Hypothesis C : cfg_ok c.
Hypothesis I : Inv c gh G V.
Variables (L S : N -> bool) (T : list tlbe).
Hypothesis HL : free L.
Hypothesis HS : free S.

Lemma at_valid : forall x rd d l n a i f e, is_rd G rd d -> x = rd_ctx d -> at_entry gh G x rd l n a i f e ->
  forall i, i < 512 -> valid_entry (enable_lpa2 x) l (ent gh a i).
Proof.
  intros x rd d l n a i f e R -> A j Hj. pose proof (inv_own _ _ _ _ I _ _ _ _ _ (ae_own _ _ _ _ _ _ _ _ _ _ A) R) as TT.
  apply (t_entries _ _ _ _ _ _ _ TT j Hj).
Qed.

(** Why RTT_DESTROY fails: the arguments, the walk, or a table that is not empty *)
Definition destroy_fail (rd addr : N) (level : Z) (code top : N) : Prop :=
  (code = RMI_ERROR_INPUT /\ ~ exists d, is_rd G rd d /\ (s2_sl (rd_ctx d) < level <= 3)%Z /\ addr < 2 ^ ipa_bits (rd_ctx d) /\ addr mod ms (level - 1) = 0) \/
  walk_fail_top gh G rd addr (level - 1) is_table_e code top \/
  (code = pack_return_code RMI_ERROR_RTT level /\ top = addr /\ exists d wi b, is_rd G rd d /\ walk_res gh (rd_ctx d) rd addr (level - 1) wi /\
     w_level wi = (level - 1)%Z /\ ent gh (w_llt wi) (w_index wi) = ETable b /\ g_ref (G b) <> 0).

Lemma wp_rtt_destroy : forall rd addr ulevel, let level := sgn64 ulevel in
  wp False (smc_rtt_destroy c rd addr ulevel) (mkS L S G V T) (fun r s' =>
    cmd_post c gh G V T (x0 r)
      (destroy_fail rd addr level (x0 r) (x2 r))
      (fun gh' labs inv => exists d e' wi, is_rd G rd d /\ (s2_sl (rd_ctx d) < level <= 3)%Z /\
         addr < 2 ^ ipa_bits (rd_ctx d) /\ addr mod ms (level - 1) = 0 /\
         labs = [LDestroy rd (level - 1) (addr / ms (level - 1)) e' (x1 r)] /\
         walk_res gh (rd_ctx d) rd addr (level - 1) wi /\ w_level wi = (level - 1)%Z /\
         top_ok (ent gh' (w_llt wi)) (level - 1) (w_index wi) addr (x2 r) /\
         inv = [(vmid (rd_ctx d), addr, if addr <? 2 ^ (ipa_bits (rd_ctx d) - 1) then 4096 else ms 2)]) s').
Proof.
  intros rd addr ulevel level. unfold smc_rtt_destroy. fold level.
  apply wp_bind, wp_find_lock; [apply HL|apply (inv_uok _ _ _ _ I)| |].
  2:{ intros L' HL' K. apply wp_ret. apply post_fail; try assumption; try discriminate; try reflexivity; [lk|].
      left. split; [reflexivity|]. apply (no_rd _ _ _ _ I), K. }
  intros F Sr. cbn [negb].
  apply wp_bind, wp_map_slot; [side|].
  destruct (rd_of_state _ _ _ _ I rd Sr) as (d & R & Ar).
  apply wp_bind. eapply wp_get_rd; [exact Ar|].
  apply wp_bind. eapply (wp_validate_structure _ _ _ _ I); [exact R|]. intros b Hb.
  destruct b; cbn [negb].
  2:{ apply wp_bind, wp_unmap_slot; [side|]. apply wp_bind, wp_granule_unlock; [side|apply (inv_uok _ _ _ _ I)|]. apply wp_ret.
      apply post_fail; try assumption; try discriminate; try reflexivity; try lk.
      left. split; [reflexivity|]. eapply (bad_rd G); [exact R|]. intro K. apply Hb in K. discriminate K. }
  destruct (proj1 Hb eq_refl) as (Hl & Ha & Hal). clear Hb.
  pose proof (in_par_iff _ _ _ _ I rd d addr R) as IP.
  set (x := rd_ctx d) in *.
  apply wp_bind, wp_unmap_slot; [side|].
  apply (wp_lock_walk _ _ _ _ I _ _ rd d); try assumption; try (fold x; lia); try side.
  { intros a Sa. unfold upd. destruct (N.eqb_spec a rd); [congruence|apply HL]. }
  intros wi L2 S2 HL2 HS2 W.
  destruct (walk_at _ _ _ _ I _ _ _ _ _ R W) as (f & e & A & Hwl & NT).
  fold x in A, Hwl. 
  pose proof (ae_st _ _ _ _ _ _ _ _ _ _ A) as Sl.
  assert (n1 : w_llt wi <> rd) by congruence.
  pose proof (ae_valid _ _ _ _ _ _ _ _ _ _ A) as VE. pose proof (ae_mem _ _ _ _ _ _ _ _ _ _ A) as Ml.
  pose proof (ae_f _ _ _ _ _ _ _ _ _ _ A) as Hf. pose proof (ae_lt _ _ _ _ _ _ _ _ _ _ A) as Hi.
  pose proof (inv_ctx _ _ _ _ I _ _ R) as X. fold x in X. pose proof (ctx_sl _ X) as SL. pose proof (ctx_min _ X) as MIN.
  pose proof (ctx_bits52 _ X) as B52.
  assert (Ha52 : addr < 2 ^ 52) by (eapply N.lt_le_trans; [exact Ha|apply pow2_le; exact B52]).
  pose proof (at_valid x rd d _ _ _ _ _ _ R eq_refl A) as VA.
  apply wp_bind, wp_map_slot; [side|].
  apply wp_bind. eapply wp_rd_word; [exact Ml|]. rewrite Hf.
  apply wp_bind.
  assert (FAIL : forall code S' L', (forall z, L' z = L2 z) -> (forall z, S' z = upd S2 SLOT_RTT true z) ->
     code <> RMI_SUCCESS ->
     (forall top, top_ok (ent gh (w_llt wi)) (w_level wi) (w_index wi) addr top -> 
        destroy_fail rd addr level code top) ->
     wp False (x2 <- (t <- get_table (w_llt wi) ;; s2tt_skip_non_live_entries_ x addr t wi) ;;
      unmap_slot SLOT_RTT ;;; granule_unlock (w_llt wi) ;;; Ret (mkRes code 0 x2 0 0)) (mkS L' S' G V T)
     (fun r s' =>
    cmd_post c gh G V T (x0 r)
      (destroy_fail rd addr level (x0 r) (x2 r))
      (fun gh' labs inv => exists d e' wi, is_rd G rd d /\ (s2_sl (rd_ctx d) < level <= 3)%Z /\
         addr < 2 ^ ipa_bits (rd_ctx d) /\ addr mod ms (level - 1) = 0 /\
         labs = [LDestroy rd (level - 1) (addr / ms (level - 1)) e' (x1 r)] /\
         walk_res gh (rd_ctx d) rd addr (level - 1) wi /\ w_level wi = (level - 1)%Z /\
         top_ok (ent gh' (w_llt wi)) (level - 1) (w_index wi) addr (x2 r) /\
         inv = [(vmid (rd_ctx d), addr, if addr <? 2 ^ (ipa_bits (rd_ctx d) - 1) then 4096 else ms 2)]) s')).
  { intros code S' L' HL' HS' nz HF. apply wp_bind, wp_bind. eapply wp_get_table; [exact Ml|].
    eapply (wp_skip _ x rd (w_level wi)); [exact (ae_words _ _ _ _ _ _ _ _ _ _ A)|exact VA|reflexivity|exact Hi|lia|exact Ha52|].
    intros top Ht. apply wp_bind, wp_unmap_slot; [side|].
    apply wp_bind, wp_granule_unlock; [side|apply (inv_uok _ _ _ _ I)|]. apply wp_ret.
    apply post_fail; try assumption; try reflexivity; try lk. apply HF, Ht. }
  destruct (Z.eqb_spec (w_level wi) (level - 1)) as [El|]; cbn [negb orb].
  2:{ apply wp_ret. cbn [fst snd]. apply FAIL; try reflexivity; [apply pack_nonzero|]. intros top Ht. right. left. exists d, wi. repeat (split; [first [assumption|reflexivity|contradiction]|]). exact Ht. }
  rewrite El in VE.
  assert (IT : s2tte_is_table (enc (enable_lpa2 x) (w_level wi) e) (level - 1) = match e with ETable _ => true | _ => false end)
    by (rewrite El; apply is_table_enc; exact VE). rewrite IT. clear IT.
  destruct e as [| | | | | | | |b] eqn:Ee; cbn [negb];
    try (apply wp_ret; cbn [fst snd]; apply FAIL; try reflexivity; [apply pack_nonzero|]; intros top Ht; right; left; exists d, wi; repeat (split; [first [assumption|reflexivity|intros _; rewrite <- (ae_e _ _ _ _ _ _ _ _ _ _ A); reflexivity]|]); exact Ht).
  rewrite El in A, VA. rewrite El.
  apply wp_bind, wp_s2tte_pa; [lia|exact (is_live_enc _ _ _ VE)|]. rewrite (pa_enc _ _ _ VE).
  destruct (own_child _ _ _ _ I _ _ _ _ _ b (ae_own _ _ _ _ _ _ _ _ _ _ A) Hi (eq_sym (ae_e _ _ _ _ _ _ _ _ _ _ A))) as [Ob Lt].
  replace (level - 1 + 1)%Z with level in Ob by lia.
  pose proof (own_rtt _ _ _ _ I _ _ _ _ Ob) as Sb.
  set (llt := w_llt wi) in *. set (i := w_index wi) in *.
  assert (nb : b <> llt).
  { intros ->. rewrite (ae_own _ _ _ _ _ _ _ _ _ _ A) in Ob. injection Ob. intros _ Eq. lia. }
  assert (nrd : b <> rd) by congruence.
  apply wp_bind, wp_find_lock; [side|apply (inv_uok _ _ _ _ I)| |].
  2:{ intros L' _ [N1|N1]; [|contradiction]. exfalso.
      rewrite (i_gran _ _ _ _ I b) in N1; [discriminate|rewrite Sb; discriminate]. }
  intros Fb _. apply wp_bind, wp_assert; [reflexivity|].
  apply wp_bind, wp_rd_ref.
  destruct (N.eqb_spec (g_ref (G b)) 0) as [R0|R0]; cbn [negb].
  2:{ apply wp_bind, wp_ret. apply wp_bind, wp_granule_unlock; [side|apply (inv_uok _ _ _ _ I)|]. apply wp_ret. cbn [fst snd].
      apply wp_bind, wp_ret. apply wp_bind, wp_unmap_slot; [side|].
      apply wp_bind, wp_granule_unlock; [side|apply (inv_uok _ _ _ _ I)|]. apply wp_ret.
      apply post_fail; try apply pack_nonzero; try reflexivity; try lk. right. right. split; [reflexivity|]. split; [reflexivity|].
      exists d, wi, b. repeat (split; [first [assumption|exact (eq_sym (ae_e _ _ _ _ _ _ _ _ _ _ A))]|]). exact R0. }
  apply wp_bind, wp_bind, wp_map_slot; [side|]. cbv zeta.
  apply wp_bind, wp_atomic_put; [side|pose proof (at_ref _ _ _ _ I x rd d _ _ _ _ _ _ R eq_refl A eq_refl); lia|].
  apply wp_bind. eapply wp_wr_word; [updsimp; exact Ml|].
  set (e' := if addr / ms (level - 1) <? parn x (level - 1) then EUnDestr else EUnNs).
  assert (K : forall T' w inv, T' = invals inv T -> w = enc (enable_lpa2 x) (level - 1) e' ->
     inv = [(vmid x, addr, if addr <? 2 ^ (ipa_bits x - 1) then 4096 else ms 2)] ->
     forall G1 L1 S1, G1 llt = mkG RTT (g_ref (G llt) - 1) (CW (upd f i 0)) -> (forall z, z <> llt -> G1 z = G z) ->
     (forall z, L1 z = upd L2 b true z) -> (forall z, S1 z = upd (upd S2 SLOT_RTT true) SLOT_RTT2 true z) ->
     wp False (wr_word llt i w ;;; granule_memzero_mapped b ;;; granule_set_state b DELEGATED ;;; unmap_slot SLOT_RTT2 ;;;
               Ret (RMI_SUCCESS, b, true)) (mkS L1 S1 G1 V T')
       (fun out s' => wp False (granule_unlock b ;;; Ret out) s'
       (fun out s' => wp False (
          x2 <- (if snd out then t <- get_table llt ;; s2tt_skip_non_live_entries_ x addr t wi
             else Ret addr) ;;
      unmap_slot SLOT_RTT ;;;
      granule_unlock llt ;;;
      Ret (mkRes (fst (fst out)) (snd (fst out)) x2 0 0)) s' (fun r s' =>
    cmd_post c gh G V T (x0 r)
      (destroy_fail rd addr level (x0 r) (x2 r))
      (fun gh' labs inv => exists d e' wi, is_rd G rd d /\ (s2_sl (rd_ctx d) < level <= 3)%Z /\
         addr < 2 ^ ipa_bits (rd_ctx d) /\ addr mod ms (level - 1) = 0 /\
         labs = [LDestroy rd (level - 1) (addr / ms (level - 1)) e' (x1 r)] /\
         walk_res gh (rd_ctx d) rd addr (level - 1) wi /\ w_level wi = (level - 1)%Z /\
         top_ok (ent gh' (w_llt wi)) (level - 1) (w_index wi) addr (x2 r) /\
         inv = [(vmid (rd_ctx d), addr, if addr <? 2 ^ (ipa_bits (rd_ctx d) - 1) then 4096 else ms 2)]) s')))).
  { intros T' w inv ET Ew Einv G1 L1 S1 Ga Fr HL1 HS1.
    assert (Gb : G1 b = G b) by (apply Fr; assumption).
    apply wp_bind. eapply wp_wr_word; [rewrite Ga; reflexivity|].
    apply wp_bind, wp_memzero_mapped. apply wp_bind, wp_set_state; [side|].
    apply wp_bind, wp_unmap_slot; [side|]. apply wp_ret.
    apply wp_bind, wp_granule_unlock; [side|unfold uok; updsimp; rewrite Gb, R0; reflexivity|]. apply wp_ret. cbn [fst snd].
    assert (W' : words_ok (enable_lpa2 x) (level - 1) (upd (upd f i 0) i w) (upd (ent gh llt) i e')).
    { eapply words_upd; [exact (ae_words _ _ _ _ _ _ _ _ _ _ A)|intros j nj; updsimp; reflexivity|exact Ew]. }
    apply wp_bind, wp_bind. eapply wp_get_table; [updsimp; reflexivity|].
    eapply (wp_skip _ x rd (level - 1)); [exact W'| |symmetry; exact El|exact Hi|lia|exact Ha52|].
    { intros j Hj. unfold upd. destruct (N.eqb_spec j i); [unfold e'; destruct (_ <? _); exact Logic.I|apply VA; exact Hj]. }
    intros top Ht. fold i in Ht.
    apply wp_bind, wp_unmap_slot; [side|].
    apply wp_bind, wp_granule_unlock; [side| |].
    { unfold uok. updsimp. rewrite Ga. cbn [g_state g_ref unlocked_inv].
      pose proof (at_ref _ _ _ _ I x rd d _ _ _ _ _ _ R eq_refl A eq_refl). lia. }
    apply wp_ret. eapply post_ok; [lk|lk| |exact ET|].
    - eapply geffs_one. eapply (ge_destroy _ _ _ _ _ d _ _ _ _ _ _ e' (upd (upd f i 0) i w)); try eassumption; try reflexivity.
      + updsimp. rewrite Ga. reflexivity.
      + updsimp. rewrite Gb, R0. reflexivity.
      + intros z nz1 nz2. updsimp. apply Fr; assumption.
    - exists d, e', wi. split; [exact R|]. split; [exact Hl|]. split; [exact Ha|]. split; [exact Hal|]. split; [reflexivity|].
      split; [exact W|]. split; [exact El|]. split; [|exact Einv].
      cbn [x2]. fold llt i. unfold set_own, set_ent. cbn [ent]. rewrite upd_same. exact Ht. }
  assert (PI : addr / ms (level - 1) < parn x (level - 1) <-> addr < 2 ^ (ipa_bits x - 1)) by (apply num_parn; [assumption|lia]).
  apply wp_bind. destruct (addr_in_par d addr) eqn:Par.
  - apply wp_tlbi. eapply K; [|unfold e'|reflexivity|updsimp; rewrite Sl; reflexivity|intros z nz; updsimp; reflexivity|reflexivity|reflexivity].
    + assert (addr <? 2 ^ (ipa_bits x - 1) = true) as -> by (apply N.ltb_lt, IP; reflexivity). reflexivity.
    + assert (addr / ms (level - 1) <? parn x (level - 1) = true) as -> by (apply N.ltb_lt, PI, IP; reflexivity). reflexivity.
  - assert (Nn : ~ addr < 2 ^ (ipa_bits x - 1)) by (intro H; apply IP in H; congruence).
    apply wp_tlbi. eapply K; [|unfold e'|reflexivity|updsimp; rewrite Sl; reflexivity|intros z nz; updsimp; reflexivity|reflexivity|reflexivity].
    + assert (addr <? 2 ^ (ipa_bits x - 1) = false) as -> by lia. reflexivity.
    + assert (addr / ms (level - 1) <? parn x (level - 1) = false) as ->; [|reflexivity].
      apply N.ltb_ge. destruct (N.lt_ge_cases (addr / ms (level - 1)) (parn x (level - 1))) as [H|H]; [|assumption].
      exfalso. apply Nn, PI, H.
Qed.
End Cmd.
