(** Entries of translation tables, as the architecture finds them and as the
    monitor does (C27, C28, C33, C34, C38), and when commands succeed (C51). *)
From Coq Require Import NArith ZArith List Bool Lia ZifyBool ZifyN.
From Verif Require Import Bits S2tte S2tteFacts State Granule Wp RecFields Measure RmiRtt RmiRealm Psci RmiRec Gic Esr Rsi RecRun
  Arch ArchFacts Mmu Machine Spec SpecStep SpecExit SpecRec SpecTables Inv InvTree MmuFacts InvStep InvStep2 InvStep3 Effects Frames CmdLib CmdData CmdRipas
  CmdRtt CmdFold CmdRtt2 CmdNs CmdRec CmdRealm CmdRsi2 CmdRun CmdRun2 CmdAll MInv MStep View StepView Own ExitFacts Step Step2 Step10.
Import ListNotations.
Local Open Scope N_scope.

(* ------------------------------------------------------------------ *)
(** * Walks *)

Section Walk.
Variables (c : cfg) (gh : ghost) (G : N -> granule) (V : N -> bool).
Hypothesis I : Inv c gh G V.

Lemma above_table : forall rd ipa l b l' b', own gh b = Some (rd, l, ipa / ms l / 512) -> own gh b' = Some (rd, l', ipa / ms l' / 512) ->
  (l < l')%Z -> exists b2, ent gh b ((ipa / ms l) mod 512) = ETable b2.
Proof.
  intros rd ipa l b l' b' O O' Hl. destruct (own_rd _ _ _ _ I _ _ _ _ O) as (d & R).
  pose proof (t_level_ok _ _ _ _ _ _ _ (inv_own _ _ _ _ I _ _ _ _ _ O R)) as L1.
  pose proof (t_level_ok _ _ _ _ _ _ _ (inv_own _ _ _ _ I _ _ _ _ _ O' R)) as L2.
  rewrite num_page in O, O' |- * by lia. set (p := ipa / 4096) in *.
  set (n := Z.to_nat (l' - l - 1)).
  destruct (own_up _ _ _ _ I n l' b' rd _ O' d R ltac:(lia)) as (b2 & e2 & B1 & B2).
  replace (l' - Z.of_nat (S n))%Z with l in B1 by lia.
  assert (P : p / pg l' / 512 / 512 ^ N.of_nat n = p / pg l).
  { pose proof (pg_pos l'). rewrite !N.div_div by (try apply N.pow_nonzero; lia).
    f_equal. rewrite (pg_pow l (S n)) by lia. replace (l + Z.of_nat (S n))%Z with l' by lia.
    replace (N.of_nat (S n)) with (N.succ (N.of_nat n)) by lia. rewrite N.pow_succ_r'. lia. }
  rewrite P in B1, B2. rewrite <- (own_unique _ _ _ _ I _ _ _ _ _ O B1) in B2. eauto.
Qed.

Lemma walk_to_own : forall n fuel rd d l b ipa lf bf target, is_rd G rd d -> Z.to_nat (3 - l) = n -> (n <= fuel)%nat ->
  own gh b = Some (rd, l, ipa / ms l / 512) -> own gh bf = Some (rd, lf, ipa / ms lf / 512) -> (l <= lf <= target)%Z ->
  ((lf < target)%Z -> is_table_e (ent gh bf ((ipa / ms lf) mod 512)) = false) ->
  walk_to fuel (tt_read G) (enable_lpa2 (rd_ctx d)) target l (b + 8 * ((ipa / ms l) mod 512)) ipa =
  Some (bf + 8 * ((ipa / ms lf) mod 512), lf, enc (enable_lpa2 (rd_ctx d)) lf (ent gh bf ((ipa / ms lf) mod 512))).
Proof.
  induction n as [|n IH]; intros fuel rd d l b ipa lf bf target R Hn Hf O OF Hl NT;
    pose proof (inv_own _ _ _ _ I _ _ _ _ _ O R) as T; pose proof (t_level_ok _ _ _ _ _ _ _ T) as LV;
    pose proof (t_level_ok _ _ _ _ _ _ _ (inv_own _ _ _ _ I _ _ _ _ _ OF R)) as LF;
    pose proof (ctx_sl _ (inv_ctx _ _ _ _ I _ _ R)) as SL;
    pose proof (tt_read_entry _ _ _ _ I _ _ _ _ _ _ O R (mod512_lt (ipa / ms l))) as RD;
    pose proof (t_entries _ _ _ _ _ _ _ T _ (mod512_lt (ipa / ms l))) as [VE _];
    (assert (H0 : l = lf -> walk_to fuel (tt_read G) (enable_lpa2 (rd_ctx d)) target l (b + 8 * ((ipa / ms l) mod 512)) ipa =
      Some (bf + 8 * ((ipa / ms lf) mod 512), lf, enc (enable_lpa2 (rd_ctx d)) lf (ent gh bf ((ipa / ms lf) mod 512))));
     [intro El; subst lf; pose proof (own_unique _ _ _ _ I _ _ _ _ _ O OF); subst bf;
      destruct fuel; cbn [walk_to]; rewrite RD;
      (destruct (Z.eqb_spec l target); [reflexivity|]); rewrite arch_decode_enc by exact VE;
      destruct (ent gh b ((ipa / ms l) mod 512)) eqn:E; try reflexivity; exfalso; specialize (NT ltac:(lia)); try rewrite E in NT; discriminate NT|]);
    try (apply H0; lia).
  destruct (Z.eq_dec l lf) as [El|Nl]; [auto|]. clear H0.
  destruct (above_table _ _ _ _ _ _ O OF ltac:(lia)) as (b2 & E2).
  destruct fuel as [|fuel]; [lia|]. cbn [walk_to]. rewrite RD. destruct (Z.eqb_spec l target); [lia|]. rewrite arch_decode_enc by exact VE. rewrite E2.
  destruct (own_child _ _ _ _ I _ _ _ _ _ _ O (mod512_lt _) E2) as (O' & L3).
  rewrite <- div512, num_succ in O' by assumption. rewrite arch_lsb_eq by lia. fold (ms (l + 1)).
  eapply IH; [exact R|lia|lia|exact O'|exact OF|lia|exact NT].
Qed.

Lemma first_desc_eq : forall rd d ipa, is_rd G rd d ->
  first_desc (rd_ctx d) ipa = g_rtt (rd_ctx d) + ipa / ms (s2_sl (rd_ctx d)) / 512 * 4096 + 8 * ((ipa / ms (s2_sl (rd_ctx d))) mod 512).
Proof.
  intros rd d ipa R. pose proof (ctx_sl _ (inv_ctx _ _ _ _ I _ _ R)) as SL.
  unfold first_desc. rewrite arch_lsb_eq by lia. fold (ms (s2_sl (rd_ctx d))). rewrite (div512 (ipa / ms (s2_sl (rd_ctx d)))) at 1. lia.
Qed.

Lemma entry_own : forall rd d ipa l b target, is_rd G rd d -> ipa < 2 ^ ipa_bits (rd_ctx d) -> own gh b = Some (rd, l, ipa / ms l / 512) ->
  (l <= target)%Z -> ((l < target)%Z -> is_table_e (ent gh b ((ipa / ms l) mod 512)) = false) ->
  entry_at G (rd_ctx d) ipa target =
  Some (b + 8 * ((ipa / ms l) mod 512), l, enc (enable_lpa2 (rd_ctx d)) l (ent gh b ((ipa / ms l) mod 512))).
Proof.
  intros rd d ipa l b target R Hi O Hl NT. destruct (root_own _ _ _ _ I _ _ _ R Hi) as (K & O0).
  pose proof (ctx_sl _ (inv_ctx _ _ _ _ I _ _ R)) as SL. pose proof (t_level_ok _ _ _ _ _ _ _ (inv_own _ _ _ _ I _ _ _ _ _ O R)) as L1.
  unfold entry_at. rewrite (first_desc_eq rd d ipa R).
  eapply walk_to_own; [exact R|reflexivity|lia|exact O0|exact O|lia|exact NT].
Qed.

Lemma entry_walk : forall rd d ipa target wi, is_rd G rd d -> ipa < 2 ^ ipa_bits (rd_ctx d) -> walk_res gh (rd_ctx d) rd ipa target wi ->
  entry_at G (rd_ctx d) ipa target =
  Some (w_llt wi + 8 * w_index wi, w_level wi, enc (enable_lpa2 (rd_ctx d)) (w_level wi) (ent gh (w_llt wi) (w_index wi))).
Proof.
  intros rd d ipa target wi R Hi (O & E & Hl & NT). rewrite E in *. apply entry_own with rd; try assumption. lia.
Qed.
End Walk.

(** ** The walk of the monitor *)
Lemma monitor_walk : forall c h m rd d ipa target, reachable c h m -> realm m rd d -> ipa < 2 ^ ipa_bits (rd_ctx d) -> (s2_sl (rd_ctx d) <= target <= 3)%Z ->
  exists wi w s', run (s2tt_walk_lock_unlock c (rd_ctx d) ipa target)
      (mkS (fun a => a =? g_rtt (rd_ctx d)) (fun _ => false) (m_gr m) (m_vmids m) (m_tlb m)) = Done wi s' /\
    entry_at (m_gr m) (rd_ctx d) ipa target = Some (w_llt wi + 8 * w_index wi, w_level wi, w) /\ w_index wi < 512 /\
    g_state (m_gr m (w_llt wi)) = RTT /\ s_gr s' = m_gr m /\ forall a, s_locks s' a = (a =? w_llt wi).
Proof.
  intros c h m rd d ipa target RC R Hi Hl. destruct (reach_minv _ _ _ RC) as (gh & M). pose proof (mv_inv _ _ _ M) as I.
  assert (W : wp False (s2tt_walk_lock_unlock c (rd_ctx d) ipa target)
      (mkS (fun a => a =? g_rtt (rd_ctx d)) (fun _ => false) (m_gr m) (m_vmids m) (m_tlb m)) (fun wi s' => exists w,
      entry_at (m_gr m) (rd_ctx d) ipa target = Some (w_llt wi + 8 * w_index wi, w_level wi, w) /\ w_index wi < 512 /\
    g_state (m_gr m (w_llt wi)) = RTT /\ s_gr s' = m_gr m /\ forall a, s_locks s' a = (a =? w_llt wi))).
  { eapply (wp_walk _ _ _ _ I _ rd); try eassumption; try reflexivity.
    - apply N.eqb_refl.
    - intros a _ Na. apply N.eqb_neq, Na.
    - intros wi L' S' HL' _ W. eexists. split; [eapply entry_walk; eassumption|]. destruct W as (O & Ei & _ & _).
      split; [rewrite Ei; apply mod512_lt|]. split; [eapply own_rtt; eassumption|]. split; [reflexivity|]. intro a. cbn [s_locks]. rewrite HL'. unfold upd.
      destruct (N.eqb_spec a (w_llt wi)); [reflexivity|]. destruct (a =? g_rtt (rd_ctx d)); reflexivity. }
  unfold wp in W. destruct (run _ _) as [wi s'| |]; [|contradiction|contradiction]. destruct W as (w & W). eauto 10.
Qed.

(** The last entry decides the translation *)
Lemma entry_translate : forall c h m rd d ipa a l w, reachable c h m -> realm m rd d -> ipa < 2 ^ ipa_bits (rd_ctx d) ->
  entry_at (m_gr m) (rd_ctx d) ipa 3 = Some (a, l, w) ->
  translate (m_gr m) (rd_ctx d) ipa =
  match arch_decode (enable_lpa2 (rd_ctx d)) l w with ALeaf oa ns xn => XOk l w (oa + ipa mod 2 ^ arch_lsb l) ns xn | _ => XFault end /\
  page_at (m_gr m) (rd_ctx d) ipa = page_desc (enable_lpa2 (rd_ctx d)) l w ipa.
Proof.
  intros c h m rd d ipa a l w RC R Hi E. destruct (reach_minv _ _ _ RC) as (gh & M). pose proof (mv_inv _ _ _ M) as I.
  destruct (leaf_of _ _ _ _ I _ _ _ R Hi) as (lf & b & e & LF). destruct (view_leaf _ _ _ _ I _ _ _ _ _ _ R Hi LF) as (P & TR).
  destruct (leaf_level _ _ _ _ I _ _ _ _ _ _ R LF) as (L1 & L2 & VE & _). pose proof LF as (O & Ee & Te). rewrite <- num_page in O, Ee by lia. subst e.
  rewrite (entry_own _ _ _ _ I rd d ipa lf b 3 R Hi O) in E; [|lia|auto]. injection E as <- <- <-.
  rewrite P, TR, arch_decode_enc, page_desc_enc by (assumption || lia). split; [|reflexivity]. rewrite arch_lsb_eq by lia. fold (ms lf).
  destruct (ent gh b ((ipa / ms lf) mod 512)); reflexivity.
Qed.

(** ** The hardware's walk, with the values the monitor gives it *)
Lemma hardware_walk : forall c h m rd d ipa, reachable c h m -> realm m rd d ->
  stage2 (tt_read (m_gr m)) (realm_vttbr (rd_ctx d)) (realm_vtcr c (rd_ctx d)) ipa = translate (m_gr m) (rd_ctx d) ipa.
Proof.
  intros c h m rd d ipa RC R. destruct (reach_minv _ _ _ RC) as (gh & M). pose proof (mv_inv _ _ _ M) as I.
  destruct (N.ltb_spec ipa (2 ^ ipa_bits (rd_ctx d))) as [Hi|Hi].
  - destruct (leaf_of _ _ _ _ I _ _ _ R Hi) as (lf & b & e & LF). destruct (view_leaf _ _ _ _ I _ _ _ _ _ _ R Hi LF) as (P & TR). rewrite TR.
    eapply stage2_leaf; try eassumption. eapply mv_roots; eassumption.
  - rewrite (stage2_out _ _ _ _ I _ _ _ R Hi). unfold translate. destruct (N.ltb_spec ipa (2 ^ ipa_bits (rd_ctx d))); [lia|reflexivity].
Qed.

(* ------------------------------------------------------------------ *)
(** * Descriptors *)

Lemma host_fields_land : forall ds l w, (1 <= l <= 3)%Z -> host_fields ds l w = host_ns_s2tte ds w l.
Proof.
  intros ds l w Hl. unfold host_ns_s2tte.
  assert (E : forall fs, N.lor (s2tte_lvl_mask l ds) S2TTE_NS_ATTR_MASK = mask_of fs -> apart fs = true -> host_fields ds l w = kept w fs ->
    host_fields ds l w = N.land w (N.lor (s2tte_lvl_mask l ds) S2TTE_NS_ATTR_MASK)).
  { intros fs -> A K. rewrite land_kept by exact A. exact K. }
  assert (l = 1 \/ l = 2 \/ l = 3)%Z as [-> | [-> | ->]] by lia; destruct ds;
    [apply (E [(2, 3); (6, 2); (8, 2); (30, 20)])|apply (E [(2, 3); (6, 2); (30, 18)])
    |apply (E [(2, 3); (6, 2); (8, 2); (21, 29)])|apply (E [(2, 3); (6, 2); (21, 27)])
    |apply (E [(2, 3); (6, 2); (8, 2); (12, 38)])|apply (E [(2, 3); (6, 2); (12, 36)])];
    try (vm_compute; reflexivity); unfold host_fields, kept; cbn [fold_right fst snd]; unfold field, bits;
    match goal with |- context [arch_lsb ?l] => let v := eval vm_compute in (arch_lsb l) in change (arch_lsb l) with v end;
    rewrite N.add_0_r, <- ?N.add_assoc; reflexivity.
Qed.

Lemma ldiff_land : forall w k, N.ldiff w k = 0 <-> N.land w k = w.
Proof.
  intros w k. split; intro H; apply N.bits_inj; intro n; pose proof (f_equal (fun z => N.testbit z n) H) as B; cbn beta in B;
    rewrite ?N.land_spec, ?N.ldiff_spec, ?N.bits_0 in *; destruct (N.testbit w n), (N.testbit k n); cbn in *; congruence.
Qed.

Lemma host_valid : forall ds l w, (1 <= l <= 3)%Z -> host_ns_s2tte_is_valid ds w l = true <-> host_fields ds l w = w /\ bits w 4 2 <> 4.
Proof.
  intros ds l w Hl. rewrite host_fields_land by exact Hl. unfold host_ns_s2tte_is_valid, host_ns_s2tte. rewrite <- ldiff_land.
  assert (B : N.land w S2TTE_MEMATTR_MASK = S2TTE_MEMATTR_FWB_RESERVED <-> bits w 4 2 = 4).
  { change S2TTE_MEMATTR_MASK with (mask_of [(2, 3)]). rewrite land_kept by reflexivity. unfold kept. cbn [fold_right fst snd]. unfold field, bits, S2TTE_MEMATTR_FWB_RESERVED.
    change (4 - 2 + 1) with 3. set (z := (w / 2 ^ 2) mod 2 ^ 3). change (2 ^ 2) with 4. lia. }
  destruct (N.eqb_spec (N.ldiff w (N.lor (s2tte_lvl_mask l ds) S2TTE_NS_ATTR_MASK)) 0) as [E|E]; cbn [negb]; [|split; [discriminate|tauto]].
  destruct (N.eqb_spec (N.land w S2TTE_MEMATTR_MASK) S2TTE_MEMATTR_FWB_RESERVED) as [F|F]; cbn [negb]; (split; [intro K; first [discriminate K|tauto]|first [reflexivity|tauto]]).
Qed.

Lemma at_page_0 : forall l pa, at_page l pa 0 = pa.
Proof. intros. unfold at_page. change (0 / 4096) with 0. rewrite N.mod_0_l by (pose proof (pg_pos l); lia). lia. Qed.

Lemma describe_enc : forall ds l e, (-1 <= l <= 3)%Z -> valid_entry ds l e -> describe ds l (enc ds l e) = read_spec ds e.
Proof.
  intros ds l e Hl VE. unfold describe. rewrite page_desc_enc, arch_decode_enc by assumption.
  destruct e; cbn [view_e read_spec]; rewrite ?at_page_0; try reflexivity.
  rewrite host_fields_land by (destruct VE as [B _]; exact B). rewrite host_ns_enc by exact VE. reflexivity.
Qed.

Lemma unassigned_enc : forall ds l e, (-1 <= l <= 3)%Z -> valid_entry ds l e -> unassigned ds l (enc ds l e) = negb (live_e e).
Proof.
  intros ds l e Hl VE. unfold unassigned. rewrite page_desc_enc, arch_decode_enc by assumption. destruct e; reflexivity.
Qed.

(* ------------------------------------------------------------------ *)
(** * Parameters of realms *)

Lemma extract_bits : forall w s f, 0 < w -> EXTRACT w s f = bits f (s + w - 1) s.
Proof.
  intros w s f Hw. unfold EXTRACT, MASK, bits. apply N.bits_inj. intro n.
  rewrite N.shiftr_spec by lia. rewrite N.land_spec. replace (s + w - 1 - s + 1) with w by lia.
  rewrite N.shiftl_spec_high by lia. replace (n + s - s) with n by lia.
  destruct (N.ltb_spec n w).
  - rewrite N.ones_spec_low, andb_true_r, N.mod_pow2_bits_low, N.div_pow2_bits by lia. reflexivity.
  - rewrite N.ones_spec_high, andb_false_r, N.mod_pow2_bits_high by lia. reflexivity.
Qed.
Lemma extract_bit : forall s f, (EXTRACT 1 s f =? 1) = N.testbit f s.
Proof.
  intros s f. rewrite extract_bits by lia. unfold bits. replace (s + 1 - 1 - s + 1) with 1 by lia. rewrite N.testbit_eqb. reflexivity.
Qed.

Lemma geometry_iff : forall c size sl tables ds,
  validate_ipa_bits_and_sl c size sl ds && (s2_num_root_rtts size sl =? tables) = true <-> geometry size sl tables ds /\ (sl = 0%Z -> 44 <= c_pa_width c).
Proof.
  intros c size sl tables ds. unfold validate_ipa_bits_and_sl, s2_inconsistent_sl, s2_num_root_rtts, geometry, min_starting_level, S2TT_PAGE_LEVEL,
    S2TT_MIN_STARTING_LEVEL_LPA2, S2TT_MIN_STARTING_LEVEL, S2TTE_STRIDE, S2TTE_STRIDE_LM1.
  destruct (Z.leb_spec (-1) sl) as [H1|H1]; [|split; [|intros ((_ & K & _) & _); destruct ds; lia]].
  2:{ destruct ((size <? 32) || _); [discriminate|]. destruct (Z.ltb_spec sl (if ds then -1 else 0)); [discriminate|]. destruct ds; lia. }
  destruct (Z.leb_spec sl 3) as [H2|H2]; [|split; [|intros ((_ & K & _) & _); destruct ds; lia]].
  2:{ destruct ((size <? 32) || _); [discriminate|]. destruct (Z.ltb_spec 3 sl); [|lia]. rewrite orb_true_r. discriminate. }
  assert (sl = -1 \/ sl = 0 \/ sl = 1 \/ sl = 2 \/ sl = 3)%Z as C by lia. clear H1 H2.
  destruct C as [->|[->|[->|[->| ->]]]]; destruct ds;
    match goal with |- context [arch_lsb ?l] => let v := eval vm_compute in (arch_lsb l) in change (arch_lsb l) with v end;
    repeat match goal with |- context [Z.to_N ?z] => let v := eval vm_compute in (Z.to_N z) in change (Z.to_N z) with v end;
    repeat match goal with |- context [(?a =? ?b)%Z] => let v := eval vm_compute in (a =? b)%Z in change (a =? b)%Z with v end;
    repeat match goal with |- context [(?a <? ?b)%Z] => let v := eval vm_compute in (a <? b)%Z in change (a <? b)%Z with v end;
    cbn [andb orb negb]; rewrite <- N.sub_add_distr;
    repeat match goal with |- context [if (?a <? ?b) || (?a2 <? ?b2) then _ else _] => destruct (N.ltb_spec a b); destruct (N.ltb_spec a2 b2); cbn [orb negb andb] end;
    repeat match goal with |- context [(?a <? ?b)%N] => destruct (N.ltb_spec a b); cbn [orb negb andb] end;
    repeat match goal with |- context [(?a <=? ?b)%N] => destruct (N.leb_spec a b) end;
    rewrite ?N.eqb_eq;
    repeat match goal with |- context [2 ^ (size - ?z)] => let u := fresh "u" in let v := eval vm_compute in z in change z with v; set (u := 2 ^ (size - v)) end;
    try (split; [intro; try discriminate; intuition (try discriminate); try lia|intros ((? & ? & ? & ?) & ?); try lia]).
Qed.

Lemma params_iff : forall c p, realm_params_valid c p = true <-> params_ok c p.
Proof.
  intros c p. unfold realm_params_valid, params_ok, is_lpa2_requested, realm_flags_sve, realm_flags_pmu, feat_lpa2, feat_s2sz, feat_num_bps, feat_num_wps,
    feat_sve_en, feat_sve_vl, feat_pmu_num_ctrs. cbv zeta. rewrite !extract_bit, !extract_bits by lia.
  change (0 + 8 - 1) with 7. change (10 + 4 - 1) with 13. change (14 + 6 - 1) with 19. change (20 + 6 - 1) with 25. change (27 + 5 - 1) with 31.
  pose proof (geometry_iff c (p_s2sz p) (p_rtt_level_start p) (p_rtt_num_start p) (N.testbit (p_flags p) 0)) as GI.
  set (f := c_feat0 c). set (F0 := N.testbit (p_flags p) 0) in *. set (F1 := N.testbit (p_flags p) 1). set (F2 := N.testbit (p_flags p) 2).
  set (B8 := N.testbit f 8). set (B9 := N.testbit f 9). set (b7 := bits f 7 0). set (b13 := bits f 13 10). set (b19 := bits f 19 14). set (b25 := bits f 25 20). set (b31 := bits f 31 27).
  clearbody F0 F1 F2 B8 B9 b7 b13 b19 b25 b31.
  assert (G32 : geometry (p_s2sz p) (p_rtt_level_start p) (p_rtt_num_start p) F0 -> 32 <= p_s2sz p) by (intros (K & _); apply K).
  split.
  - rewrite !andb_true_iff, !negb_true_iff, !orb_false_iff. intros (((((((H1 & H2) & H3) & H4) & H5) & H6) & H7) & H8).
    destruct (proj1 GI) as (GE & GP); [rewrite H6, H7; reflexivity|].
    split; [exact GE|]. split; [lia|]. split; [intro; subst F0; destruct B8; [reflexivity|discriminate H1]|]. split; [exact GP|]. split; [lia|]. split; [lia|].
    split; [intro; subst F1; cbn [negb orb] in H4; apply andb_prop in H4; destruct H4; split; [assumption|lia]|].
    split; [intro; subst F2; cbn [negb orb] in H5; apply andb_prop in H5; destruct H5 as [H5 H9]; split; [lia|]; intro Z; rewrite Z in H9; exact H9|].
    lia.
  - intros (GE & H1 & H2 & GP & H3 & H4 & H5 & H6 & H7). specialize (G32 GE). destruct (proj1 (andb_true_iff _ _) (proj2 GI (conj GE GP))) as (V1 & V2). rewrite V1, V2.
    rewrite !andb_true_iff, !negb_true_iff, !orb_false_iff. repeat split; try lia.
    + destruct F0; [rewrite (H2 eq_refl); reflexivity|reflexivity].
    + destruct F1; [|reflexivity]. destruct (H5 eq_refl) as (-> & K). cbn [negb orb andb]. lia.
    + destruct F2; [|reflexivity]. destruct (H6 eq_refl) as (K & K2). cbn [negb orb andb]. destruct (N.eqb_spec (p_pmu_num_ctrs p) 0) as [Z|Z]; cbn [negb orb]; [rewrite (K2 Z), andb_true_r|]; lia.
Qed.
