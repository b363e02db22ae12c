(** Effect of the exits of a realm and of RMI_REC_ENTER *)
From Coq Require Import NArith ZArith List Bool Lia ZifyBool ZifyN.
From Verif Require Import Bits S2tte S2tteFacts State Granule Wp RecFields Measure RmiGranule RmiRtt RmiRealm Psci RmiRec
  Gic Esr Rsi RecRun SpecExit ExitFacts Inv InvTree InvStep InvStep2 InvStep3 Effects CmdLib CmdRtt CmdFold CmdRtt2 CmdNs CmdData CmdRipas CmdRec
  CmdRsi CmdRsi2.
Import ListNotations.
Local Open Scope N_scope.

(** What no exit and no entry changes in a REC *)
Definition ident (r : recd) :=
  (r_idx r, r_g_rd r, r_aux r, r_ctx r, (r_vttbr r, r_vtcr r, r_common_hcr r, r_mdcr r),
   r_sys r VMPIDR_EL2, (r_pmu_enabled r, r_pmu_num_ctrs r, r_algorithm r, r_simd r)).

Lemma ident_ok : forall c d r r', ident r' = ident r -> req_ok d (r_set_ripas r') -> rec_ok c d r -> rec_ok c d r'.
Proof.
  intros c d r r' E Q (H1 & H2 & H3 & H4 & H5 & H6 & H7 & H8 & H9 & H10 & H11 & _). unfold ident in E.
  injection E as E1 E2 E3 E4 E5 E6 E7 E8 E9 E10 E11 E12 E13. unfold rec_ok.
  rewrite E1, E3, E4, E5, E6, E9, E10, E11, E12, E13. repeat (split; [assumption|]). exact Q.
Qed.

(** The request for a change of RIPAS, the pending host call and PSCI request, and
    whether the REC can be entered *)
Definition pend (r : recd) := (r_set_ripas r, r_host_call r, r_psci_pending r, r_runnable r).

Lemma mode_vec : forall vbar spsr ease, realm_mode spsr -> exists pc, calc_vector_entry vbar spsr ease = Some pc.
Proof.
  intros vbar spsr ease M. unfold calc_vector_entry, realm_mode in *.
  rewrite !land_mask_field, N.pow_0_r, N.mul_1_r.
  destruct M as [M|[M|[M|[]]]]; rewrite <- M; cbn [N.eqb Pos.eqb]; eauto.
  destruct (_ =? 0); eauto.
Qed.
Lemma mode_init : realm_mode calc_pstate.
Proof. vm_compute. tauto. Qed.

Lemma inject_undef_keeps : forall r r', realm_inject_undef_abort r = Some r' ->
  ident r' = ident r /\ pend r' = pend r /\ r_pstate r' = calc_pstate /\ r_last_esr r' = r_last_esr r /\ r_regs r' = r_regs r.
Proof.
  intros r r' H. unfold realm_inject_undef_abort in H. destruct (calc_vector_entry _ _ _); [|discriminate].
  injection H as <-. repeat split; reflexivity.
Qed.
Lemma inject_idabort_keeps : forall r esr far fsc r', inject_sync_idabort r esr far fsc = Some r' ->
  ident r' = ident r /\ pend r' = pend r /\ r_pstate r' = calc_pstate /\ r_last_esr r' = r_last_esr r /\ r_regs r' = r_regs r.
Proof.
  intros r esr far fsc r' H. unfold inject_sync_idabort in H. destruct (calc_esr_idabort _ _ _); [|discriminate].
  destruct (calc_vector_entry _ _ _); [|discriminate]. injection H as <-. repeat split; reflexivity.
Qed.

(** Assumptions about an exit without which the monitor stops *)
Definition exit_ok (ev : event) (r : recd) (simd : bool) : Prop :=
  let esr := ev_esr ev in let ec := esr_ec esr in
  realm_mode (r_pstate r) /\
  match ev_exc ev with
  | ExcSync =>
    (ec = EC_SMC -> (0 <= s2_sl (r_ctx r))%Z) /\
    (ec = EC_SYSREG -> has esr ESR_IL = true /\
       (N.land esr ESR_EL2_SYSREG_ID_MASK = ESR_EL2_SYSREG_ID -> sysreg_is_write esr = false) /\
       (N.land esr ESR_ICC_EL1_MASK = ESR_ICC_EL1 \/ N.land esr ESR_EL2_SYSREG_MASK = ESR_ICC_PMR_EL1 ->
        In (N.land esr ESR_EL2_SYSREG_MASK) [ESR_ICC_DIR; ESR_ICC_SGI1R; ESR_ICC_SGI0R] /\ sysreg_is_write esr = true)) /\
    (ec = EC_INST_ABORT \/ ec = EC_DATA_ABORT -> fsc_is_external_abort (N.land esr FSC_MASK) = true ->
       N.land esr SET_MASK = SET_UER \/ N.land esr SET_MASK = SET_UEO) /\
    (simd = true -> ec <> EC_FPU /\ ~ (ec = EC_SVE /\ sve_en (r_simd r) = true))
  | ExcSerror =>
    has esr SERROR_IDS_BIT = false /\ N.land esr (MASK 6 0) = 1 /\
    In (N.land esr (MASK 3 10)) [SERROR_AET 1; SERROR_AET 3; SERROR_AET 6; SERROR_AET 2]
  | _ => True
  end.

(** The page is not shown to the realm: accesses to it are aborts of the realm *)
Definition page_empty (gh : ghost) (rd : N) (x : s2ctx) (ipa : N) : Prop :=
  ipa < 2 ^ (ipa_bits x - 1) /\ exists l b e, Leaf gh rd (ipa / 4096) l b e /\ e_ripas e = EMPTY.

(** The exit record of a data abort the host is told about *)
Definition dabt_exit (r : recd) (x : rec_exit) (esr far hpfar : N) : rec_exit :=
  let fill esr' far' write_val :=
    let x1 := ex_set_hpfar (ex_set_far (ex_set_esr x esr') far') hpfar in
    ex_set_gprs x1 (upd (ex_gprs x1) 0 write_val) in
  if is_aarch32 r || addr_in_rec_par r (hpfar_fipa hpfar) then
    fill (N.land (if is_aarch32 r then N.ldiff esr ISV_BIT else esr) ESR_NONEMULATED_ABORT_MASK) 0 0
  else
    fill (N.land esr ESR_EMULATED_ABORT_MASK) (N.land far 4095) (if esr_is_write esr then get_dabt_write_value r esr else 0).

(** Outcomes of the exceptions that are handled without a call of the RSI:
    the REC, the exit record, the SIMD flag and whether the realm goes on *)
Inductive sync_out (h : hw) (gh : ghost) (r : recd) (x : rec_exit) (simd : bool) (esr far hpfar : N) :
  recd -> rec_exit -> bool -> bool -> Prop :=
| so_wfx : esr_ec esr = EC_WFX -> sync_out h gh r x simd esr far hpfar (advance_pc r) (ex_set_esr x (N.land esr (N.lor EC_MASK 1))) simd false
| so_undef : forall r', (esr_ec esr = EC_HVC \/ (esr_ec esr = EC_SVE /\ sve_en (r_simd r) = false) \/
      (esr_ec esr = EC_SME /\ (sve_en (r_simd r) = false \/ simd = true))) -> realm_inject_undef_abort r = Some r' ->
    sync_out h gh r x simd esr far hpfar r' x simd true
| so_id : esr_ec esr = EC_SYSREG -> N.land esr ESR_EL2_SYSREG_ID_MASK = ESR_EL2_SYSREG_ID ->
    sync_out h gh r x simd esr far hpfar
      (advance_pc (if sysreg_rt esr =? 31 then r else set_reg r (sysreg_rt esr) (id_value h (sve_en (r_simd r)) (N.land esr ESR_EL2_SYSREG_MASK)))) x simd true
| so_icc : esr_ec esr = EC_SYSREG -> N.land esr ESR_EL2_SYSREG_ID_MASK <> ESR_EL2_SYSREG_ID ->
    In (N.land esr ESR_EL2_SYSREG_MASK) [ESR_ICC_DIR; ESR_ICC_SGI1R; ESR_ICC_SGI0R] -> sysreg_is_write esr = true ->
    sync_out h gh r x simd esr far hpfar (advance_pc r)
      (let x1 := ex_set_esr (ex_set_reason x RMI_EXIT_SYNC) esr in ex_set_gprs x1 (upd (ex_gprs x1) 0 (get_sysreg_write_value r esr))) simd false
| so_raz : esr_ec esr = EC_SYSREG -> N.land esr ESR_EL2_SYSREG_ID_MASK <> ESR_EL2_SYSREG_ID ->
    N.land esr ESR_ICC_EL1_MASK <> ESR_ICC_EL1 -> N.land esr ESR_EL2_SYSREG_MASK <> ESR_ICC_PMR_EL1 ->
    sync_out h gh r x simd esr far hpfar
      (advance_pc (if negb (sysreg_is_write esr) && negb (sysreg_rt esr =? 31) then set_reg r (sysreg_rt esr) 0 else r)) x simd true
| so_uer : forall r', In (esr_ec esr) [EC_INST_ABORT; EC_DATA_ABORT] -> fsc_is_external_abort (N.land esr FSC_MASK) = true ->
    N.land esr SET_MASK = SET_UER -> inject_sync_idabort r esr far FSC_SEA = Some r' ->
    sync_out h gh r x simd esr far hpfar r' (ex_set_esr x (N.land esr ESR_NONEMULATED_ABORT_MASK)) simd false
| so_ueo : In (esr_ec esr) [EC_INST_ABORT; EC_DATA_ABORT] -> fsc_is_external_abort (N.land esr FSC_MASK) = true -> N.land esr SET_MASK = SET_UEO ->
    sync_out h gh r x simd esr far hpfar r (ex_set_esr x (N.land esr ESR_NONEMULATED_ABORT_MASK)) simd false
| so_inject : forall r', In (esr_ec esr) [EC_INST_ABORT; EC_DATA_ABORT] -> fsc_is_external_abort (N.land esr FSC_MASK) = false ->
    (rec_ipa_size r <= hpfar_fipa hpfar \/ (esr_ec esr = EC_INST_ABORT /\ addr_in_rec_par r (hpfar_fipa hpfar) = false) \/
     page_empty gh (r_g_rd r) (r_ctx r) (hpfar_fipa hpfar)) ->
    inject_sync_idabort r esr far FSC_SEA = Some r' ->
    sync_out h gh r x simd esr far hpfar r' x simd true
| so_dabt : esr_ec esr = EC_DATA_ABORT -> fsc_is_external_abort (N.land esr FSC_MASK) = false ->
    hpfar_fipa hpfar < rec_ipa_size r -> ~ page_empty gh (r_g_rd r) (r_ctx r) (hpfar_fipa hpfar) ->
    sync_out h gh r x simd esr far hpfar r (dabt_exit r x esr far hpfar) simd false
| so_iabt : forall x', esr_ec esr = EC_INST_ABORT -> fsc_is_external_abort (N.land esr FSC_MASK) = false ->
    hpfar_fipa hpfar < rec_ipa_size r -> addr_in_rec_par r (hpfar_fipa hpfar) = true ->
    ~ page_empty gh (r_g_rd r) (r_ctx r) (hpfar_fipa hpfar) ->
    x' = (if N.ldiff (N.land esr FSC_MASK) 3 =? FSC_TRANSLATION_FAULT_L0
          then ex_set_esr (ex_set_hpfar x hpfar) (N.land esr ESR_NONEMULATED_ABORT_MASK) else x) ->
    sync_out h gh r x simd esr far hpfar r x' simd false
| so_simd : (esr_ec esr = EC_FPU \/ ((esr_ec esr = EC_SVE \/ esr_ec esr = EC_SME) /\ sve_en (r_simd r) = true)) -> simd = false ->
    sync_out h gh r x simd esr far hpfar (set_sysreg r CPTR_EL2 (simd_enable (r_sys r CPTR_EL2) (sve_en (r_simd r)))) x true true
| so_none : ~ In (esr_ec esr) [EC_WFX; EC_HVC; EC_SMC; EC_SYSREG; EC_INST_ABORT; EC_DATA_ABORT; EC_FPU; EC_SVE; EC_SME] ->
    sync_out h gh r x simd esr far hpfar r x simd false.

(** The REC and the exit record after a call of the RSI *)
Definition rsi_result (o : vcpu * rsi) : vcpu * bool :=
  let v1 := fst o in let a := snd o in
  let r1 := if ra_update a then set_results (v_rec v1) (ra_x a) else v_rec v1 in
  if ra_abort a then
    (mkV r1 (ex_set_reason (ex_set_hpfar (ex_set_far (ex_set_esr (v_exit v1)
         (N.lor EC_DATA_ABORT (FSC_TRANSLATION_FAULT_L0 + Z.to_N (ra_level a)))) 0) (N.shiftr (r_regs r1 1) 8)) RMI_EXIT_SYNC) (v_att v1),
     negb (ra_exit a))
  else (mkV (advance_pc r1) (v_exit v1) (v_att v1), negb (ra_exit a)).

(** run_info of an exit that reaches the host *)
Definition keep_last (ev : event) (v : vcpu) : vcpu :=
  v_set_rec v (set_last (v_rec v) (if has (ex_esr (v_exit v)) ISV_BIT then ev_esr ev else N.ldiff (ev_esr ev) ISV_BIT) (ev_hpfar ev) (ev_far ev)).

(** Outcomes of an exit *)
Inductive exit_out (c : cfg) (h : hw) (gh : ghost) (G : N -> granule) (d : rdesc) (ev : event) (v : vcpu) (simd : bool) :
  list label -> rstate * bool -> Prop :=
| eo_irq : ev_exc ev = ExcIrq -> exit_out c h gh G d ev v simd [] (v_set_exit v (ex_set_reason (v_exit v) RMI_EXIT_IRQ), simd, false)
| eo_fiq : ev_exc ev = ExcFiq -> exit_out c h gh G d ev v simd [] (v_set_exit v (ex_set_reason (v_exit v) RMI_EXIT_FIQ), simd, false)
| eo_other : ev_exc ev = ExcOther -> exit_out c h gh G d ev v simd [] (v, simd, false)
| eo_serror : forall r', ev_exc ev = ExcSerror ->
    r' = (if (N.land (ev_esr ev) (MASK 3 10) =? SERROR_AET 1) || (N.land (ev_esr ev) (MASK 3 10) =? SERROR_AET 3)
          then set_serror (v_rec v) (ev_esr ev) true else v_rec v) ->
    exit_out c h gh G d ev v simd []
      (mkV (set_last r' (ev_esr ev) (ev_hpfar ev) (ev_far ev))
           (ex_set_esr (ex_set_reason (v_exit v) RMI_EXIT_SERROR) (N.land (ev_esr ev) ESR_SERROR_MASK)) (v_att v), simd, false)
| eo_sync : forall r' x' simd' go, ev_exc ev = ExcSync -> esr_ec (ev_esr ev) <> EC_SMC ->
    sync_out h gh (v_rec v) (ex_set_reason (v_exit v) RMI_EXIT_SYNC) simd (ev_esr ev) (ev_far ev) (ev_hpfar ev) r' x' simd' go ->
    exit_out c h gh G d ev v simd [] ((if go then mkV r' x' (v_att v) else keep_last ev (mkV r' x' (v_att v))), simd', go)
| eo_rsi : forall labs o, ev_exc ev = ExcSync -> esr_ec (ev_esr ev) = EC_SMC ->
    rsi_out c (ev_att ev) gh G d (v_set_exit v (ex_set_reason (v_exit v) RMI_EXIT_SYNC)) labs o ->
    (ra_abort (snd o) = true -> (0 <= ra_level (snd o) <= 3)%Z) ->
    exit_out c h gh G d ev v simd labs
      ((if snd (rsi_result o) then fst (rsi_result o) else keep_last ev (fst (rsi_result o))), simd, snd (rsi_result o)).

Section Exit.
Variables (c : cfg) (gh : ghost) (G : N -> granule) (V : N -> bool).
Hypothesis I : Inv c gh G V.
Variables (L S : N -> bool) (T : list tlbe).
Hypothesis HL : free L.
Hypothesis HS : slots_ok S.

Lemma wp_ipa_is_empty : forall E r d ipa (Q : bool -> state -> Prop), is_rd G (r_g_rd r) d -> r_ctx r = rd_ctx d -> ipa mod 4096 = 0 ->
  (forall b L' S', (b = true <-> page_empty gh (r_g_rd r) (r_ctx r) ipa) -> (forall z, L' z = L z) -> (forall z, S' z = S z) ->
     Q b (mkS L' S' G V T)) ->
  wp E (ipa_is_empty c r ipa) (mkS L S G V T) Q.
Proof.
  intros E r d ipa Q R Ex Al H. unfold ipa_is_empty. destruct HS as (HS0 & HS1 & HS2 & HS3).
  apply wp_bind, wp_assert; [unfold is_aligned_granule; change GRANULE_SIZE with 4096; lia|].
  apply wp_bind. eapply (wp_ipa_to_pa _ _ _ _ I); try eassumption; [intros; apply HL| | |].
  - intros [N|N]; [contradiction|]. apply wp_ret, H; try reflexivity. split; [discriminate|]. intros (K & _). rewrite Ex in K. lia.
  - intros l b pa g L1 S1 _ Hp LF Eg D Hl HL1 HS1'.
    apply wp_bind, wp_granule_unlock; [side|apply (inv_uok _ _ _ _ I)|]. apply wp_ret, H; [| |exact HS1'].
    + split; [discriminate|]. intros (_ & l' & b' & e' & LF' & N).
      destruct (leaf_unique _ _ _ _ I _ _ _ _ _ _ _ _ LF LF') as (_ & _ & <-). discriminate.
    + intro z. unfold upd. destruct (N.eqb_spec z b) as [->|]; [symmetry; apply HL|]. rewrite HL1. apply upd_other. assumption.
  - intros l b e L1 S1 _ Hp LF NE Hl HL1 HS1'.
    assert (K : forall x, (x = true <-> e_ripas e = EMPTY) -> wp E (Ret x) (mkS L1 S1 G V T) Q).
    { intros x Hx. apply wp_ret, H; try assumption. split.
      - intro K. split; [rewrite Ex; exact Hp|]. exists l, b, e. split; [exact LF|]. apply Hx, K.
      - intros (_ & l' & b' & e' & LF' & N). apply Hx.
        destruct (leaf_unique _ _ _ _ I _ _ _ _ _ _ _ _ LF LF') as (_ & _ & ->). exact N. }
    destruct (e_ripas e) eqn:Er; apply K; split; (discriminate || reflexivity).
Qed.

Variables (v : vcpu) (d : rdesc) (h : hw) (ev : event) (simd : bool).
Let r := v_rec v.
Let rd := r_g_rd r.
Hypothesis R : is_rd G rd d.
Hypothesis Ex : r_ctx r = rd_ctx d.
Let E := ~ exit_ok ev r simd.
Let esr := ev_esr ev.
Let post (P : recd -> rec_exit -> bool -> Prop) (o : recd * rec_exit * bool) (s' : state) : Prop :=
  exists L' S', s' = mkS L' S' G V T /\ (forall z, L' z = L z) /\ (forall z, S' z = S z) /\ P (fst (fst o)) (snd (fst o)) (snd o).

Lemma fipa_aligned : forall hpfar, hpfar_fipa hpfar mod 4096 = 0.
Proof.
  intro hp. unfold hpfar_fipa, MASK. rewrite N.shiftl_mul_pow2.
  assert (K : N.land hp (N.shiftl (N.ones 40) 4) = (hp / 2 ^ 4) mod 2 ^ 40 * 2 ^ 4).
  { rewrite <- N.land_ones, <- N.shiftr_div_pow2, <- N.shiftl_mul_pow2, N.shiftl_land.
    apply N.bits_inj. intro n. rewrite !N.land_spec. destruct (N.ltb_spec n 4).
    - rewrite !N.shiftl_spec_low by assumption. rewrite Bool.andb_false_r. reflexivity.
    - rewrite !N.shiftl_spec_high', N.shiftr_spec', N.sub_add by assumption. reflexivity. }
  rewrite K, <- N.mul_assoc. change (2 ^ 4 * 2 ^ 8) with 4096. apply N.mod_mul. discriminate.
Qed.

Lemma panic_wp : forall A (s : state) (Q : A -> state -> Prop), E -> wp E Panic s Q.
Proof. intros. exact H. Qed.

Lemma inject_id : forall (s : state) far (Q : recd -> state -> Prop), ev_exc ev = ExcSync -> (esr_ec esr = EC_INST_ABORT \/ esr_ec esr = EC_DATA_ABORT) ->
  (forall r', inject_sync_idabort r esr far FSC_SEA = Some r' -> Q r' s) -> wp E (inject_idabort r esr far) s Q.
Proof.
  intros s far Q Hx Hec H. unfold inject_idabort. destruct (inject_sync_idabort r esr far FSC_SEA) eqn:In0; [apply wp_ret, H, eq_refl|].
  apply panic_wp. intros (M & _). unfold inject_sync_idabort in In0.
  assert (K : exists e1, calc_esr_idabort esr (r_pstate r) FSC_SEA = Some e1).
  { unfold calc_esr_idabort. replace (negb _) with false by (destruct Hec as [->| ->]; reflexivity).
    change (negb (N.ldiff FSC_SEA FSC_MASK =? 0)) with false. eauto. }
  destruct K as (e1 & K). rewrite K in In0.
  destruct (mode_vec (r_sys r VBAR_EL1) (r_pstate r) (has (r_sys r SCTLR2_EL1) SCTLR2_EASE_BIT) M) as (pc & K2). rewrite K2 in In0. discriminate.
Qed.

Lemma inject_un : forall (s : state) (Q : recd -> state -> Prop),
  (forall r', realm_inject_undef_abort r = Some r' -> Q r' s) -> wp E (inject_undef r) s Q.
Proof.
  intros s Q H. unfold inject_undef. destruct (realm_inject_undef_abort r) eqn:In0; [apply wp_ret, H, eq_refl|].
  apply panic_wp. intros (M & _). unfold realm_inject_undef_abort in In0.
  destruct (mode_vec (r_sys r VBAR_EL1) (r_pstate r) false M) as (pc & K2). rewrite K2 in In0. discriminate.
Qed.

Lemma wp_external : forall (x : rec_exit) (Q : option (recd * rec_exit) -> state -> Prop) s,
  ev_exc ev = ExcSync -> (esr_ec esr = EC_INST_ABORT \/ esr_ec esr = EC_DATA_ABORT) ->
  (fsc_is_external_abort (N.land esr FSC_MASK) = false -> Q None s) ->
  (forall r', fsc_is_external_abort (N.land esr FSC_MASK) = true ->
      (N.land esr SET_MASK = SET_UEO /\ r' = r) \/ (N.land esr SET_MASK = SET_UER /\ inject_sync_idabort r esr (ev_far ev) FSC_SEA = Some r') ->
      Q (Some (r', ex_set_esr x (N.land esr ESR_NONEMULATED_ABORT_MASK))) s) ->
  wp E (handle_sync_external_abort r x esr (ev_far ev)) s Q.
Proof.
  intros x Q s Hx Hec H1 H2. unfold handle_sync_external_abort.
  destruct (fsc_is_external_abort (N.land esr FSC_MASK)) eqn:F; cbn [negb]; [|apply wp_ret, H1, eq_refl]. cbv zeta.
  destruct (N.eqb_spec (N.land esr SET_MASK) SET_UER) as [E1|E1].
  { apply wp_bind. apply inject_id; try assumption. intros r' Hr'. apply wp_ret, H2; auto. }
  destruct (N.eqb_spec (N.land esr SET_MASK) SET_UEO) as [E2|E2].
  { apply wp_ret, H2; auto. }
  apply panic_wp. intros (_ & K). rewrite Hx in K. destruct K as (_ & _ & K & _). destruct (K Hec F); contradiction.
Qed.

Lemma wp_data_abort : forall x, ev_exc ev = ExcSync -> esr_ec esr = EC_DATA_ABORT ->
  wp E (handle_data_abort c r x esr (ev_far ev) (ev_hpfar ev)) (mkS L S G V T)
    (post (fun r' x' go => sync_out h gh r x simd esr (ev_far ev) (ev_hpfar ev) r' x' simd go)).
Proof.
  intros x Hx Hec. unfold handle_data_abort. cbv zeta. assert (IE : In (esr_ec esr) [EC_INST_ABORT; EC_DATA_ABORT]) by (right; left; auto).
  apply wp_bind, wp_external; auto.
  - intro F.
    assert (INJ : forall L' S', (forall z, L' z = L z) -> (forall z, S' z = S z) ->
       (rec_ipa_size r <= hpfar_fipa (ev_hpfar ev) \/ page_empty gh (r_g_rd r) (r_ctx r) (hpfar_fipa (ev_hpfar ev))) ->
       wp E (r1 <- inject_idabort r esr (ev_far ev) ;; Ret (r1, x, true)) (mkS L' S' G V T)
         (post (fun r' x' go => sync_out h gh r x simd esr (ev_far ev) (ev_hpfar ev) r' x' simd go))).
    { intros L' S' H1 H2 H3. apply wp_bind, inject_id; auto. intros r' Hr'. apply wp_ret. exists L', S'.
      split; [reflexivity|]. split; [exact H1|]. split; [exact H2|]. apply so_inject; auto. tauto. }
    apply wp_bind. destruct (N.leb_spec (rec_ipa_size r) (hpfar_fipa (ev_hpfar ev))) as [B|B].
    + apply wp_ret. apply INJ; auto.
    + eapply wp_ipa_is_empty; try eassumption; [apply fipa_aligned|]. intros b L' S' Hb H1 H2. destruct b.
      * apply INJ; auto. right. apply Hb. reflexivity.
      * assert (NE : ~ page_empty gh (r_g_rd r) (r_ctx r) (hpfar_fipa (ev_hpfar ev))) by (intro K; apply Hb in K; discriminate).
        assert (FIN : wp E (Ret (r, dabt_exit r x esr (ev_far ev) (ev_hpfar ev), false)) (mkS L' S' G V T)
         (post (fun r' x' go => sync_out h gh r x simd esr (ev_far ev) (ev_hpfar ev) r' x' simd go))).
        { apply wp_ret. exists L', S'. split; [reflexivity|]. split; [exact H1|]. split; [exact H2|]. apply so_dabt; auto. }
        unfold dabt_exit in FIN. destruct (is_aarch32 r || addr_in_rec_par r (hpfar_fipa (ev_hpfar ev))); exact FIN.
  - intros r' F Hr'. apply wp_ret. exists L, S. split; [reflexivity|]. split; [reflexivity|]. split; [reflexivity|].
    destruct Hr' as [(Hs & ->)|(Hs & Hr')]; [apply so_ueo|apply so_uer]; auto.
Qed.

Lemma wp_inst_abort : forall x, ev_exc ev = ExcSync -> esr_ec esr = EC_INST_ABORT ->
  wp E (handle_instruction_abort c r x esr (ev_far ev) (ev_hpfar ev)) (mkS L S G V T)
    (post (fun r' x' go => sync_out h gh r x simd esr (ev_far ev) (ev_hpfar ev) r' x' simd go)).
Proof.
  intros x Hx Hec. unfold handle_instruction_abort. cbv zeta. assert (IE : In (esr_ec esr) [EC_INST_ABORT; EC_DATA_ABORT]) by (left; auto).
  apply wp_bind, wp_external; auto.
  - intro F.
    assert (INJ : forall L' S', (forall z, L' z = L z) -> (forall z, S' z = S z) ->
       (rec_ipa_size r <= hpfar_fipa (ev_hpfar ev) \/ addr_in_rec_par r (hpfar_fipa (ev_hpfar ev)) = false \/
        page_empty gh (r_g_rd r) (r_ctx r) (hpfar_fipa (ev_hpfar ev))) ->
       wp E (r1 <- inject_idabort r esr (ev_far ev) ;; Ret (r1, x, true)) (mkS L' S' G V T)
         (post (fun r' x' go => sync_out h gh r x simd esr (ev_far ev) (ev_hpfar ev) r' x' simd go))).
    { intros L' S' H1 H2 H3. apply wp_bind, inject_id; auto. intros r' Hr'. apply wp_ret. exists L', S'.
      split; [reflexivity|]. split; [exact H1|]. split; [exact H2|]. apply so_inject; auto. tauto. }
    apply wp_bind. destruct (N.leb_spec (rec_ipa_size r) (hpfar_fipa (ev_hpfar ev))) as [B|B]; cbn [orb].
    { apply wp_ret. apply INJ; auto. }
    destruct (addr_in_rec_par r (hpfar_fipa (ev_hpfar ev))) eqn:B2; cbn [negb].
    2:{ apply wp_ret. apply INJ; auto. }
    eapply wp_ipa_is_empty; try eassumption; [apply fipa_aligned|]. intros b L' S' Hb H1 H2. destruct b.
    { apply INJ; auto. right. right. apply Hb. reflexivity. }
    assert (NE : ~ page_empty gh (r_g_rd r) (r_ctx r) (hpfar_fipa (ev_hpfar ev))) by (intro K; apply Hb in K; discriminate).
    destruct (N.ldiff (N.land esr FSC_MASK) 3 =? FSC_TRANSLATION_FAULT_L0) eqn:FT; cbn [negb]; apply wp_ret; exists L', S';
      (split; [reflexivity|]; split; [exact H1|]; split; [exact H2|]; apply so_iabt; auto; rewrite FT; reflexivity).
  - intros r' F Hr'. apply wp_ret. exists L, S. split; [reflexivity|]. split; [reflexivity|]. split; [reflexivity|].
    destruct Hr' as [(Hs & ->)|(Hs & Hr')]; [apply so_ueo|apply so_uer]; auto.
Qed.

(** An exit: what changes in the tables and in the REC *)
Definition run_post (P : list label -> rstate * bool -> Prop) (o : rstate * bool) (s' : state) : Prop :=
  exists L' S' G' labs, s' = mkS L' S' G' V T /\ (forall z, L' z = L z) /\ (forall z, S' z = S z) /\
    geffs c gh G V labs gh G' V /\ P labs o.

Lemma run_same : forall (P : list label -> rstate * bool -> Prop) o L' S', (forall z, L' z = L z) -> (forall z, S' z = S z) -> P [] o ->
  run_post P o (mkS L' S' G V T).
Proof. intros P o L' S' H1 H2 HP. exists L', S', G, []. split; [reflexivity|]. repeat (split; [assumption|]). split; [apply gs_nil; reflexivity|exact HP]. Qed.

Lemma wp_realm_exit : cca_ok (ev_att ev) -> att_ok (v_att v) ->
  wp E (handle_realm_exit c h ev (v, simd)) (mkS L S G V T) (run_post (exit_out c h gh G d ev v simd)).
Proof.
  intros Hc Ha. unfold handle_realm_exit. cbn [fst snd]. cbv zeta. fold esr.
  destruct (ev_exc ev) eqn:Hx.
  - set (v0 := v_set_exit v (ex_set_reason (v_exit v) RMI_EXIT_SYNC)).
    set (Q := fun (o : rstate * bool) (s' : state) => wp E (if snd o then Ret o else
      Ret (v_set_rec (fst (fst o)) (set_last (v_rec (fst (fst o)))
             (if has (ex_esr (v_exit (fst (fst o)))) ISV_BIT then esr else N.ldiff esr ISV_BIT) (ev_hpfar ev) (ev_far ev)),
           snd (fst o), false)) s' (run_post (exit_out c h gh G d ev v simd))).
    apply wp_bind. change (wp E (handle_exception_sync c h ev (v0, simd)) (mkS L S G V T) Q).
    assert (SY : forall r' x' simd' go L' S', esr_ec esr <> EC_SMC ->
        sync_out h gh r (v_exit v0) simd esr (ev_far ev) (ev_hpfar ev) r' x' simd' go ->
        (forall z, L' z = L z) -> (forall z, S' z = S z) -> Q (mkV r' x' (v_att v), simd', go) (mkS L' S' G V T)).
    { intros r' x' simd' go L' S' NS_ HO H1 H2. unfold Q. cbn [fst snd].
      pose proof (eo_sync c h gh G d ev v simd r' x' simd' go Hx NS_ HO) as K.
      destruct go; apply wp_ret, run_same; assumption. }
    unfold handle_exception_sync. cbn [fst snd]. cbv zeta. fold esr. change (v_rec v0) with r. change (v_att v0) with (v_att v).
    destruct (N.eqb_spec (esr_ec esr) EC_WFX) as [E1|E1].
    { apply wp_ret. apply SY; try reflexivity; [rewrite E1; discriminate|]. apply so_wfx. exact E1. }
    destruct (N.eqb_spec (esr_ec esr) EC_HVC) as [E2|E2].
    { apply wp_bind, inject_un. intros r' Hr'. apply wp_ret. apply (SY r' (v_exit v0)); try reflexivity; [rewrite E2; discriminate|]. apply so_undef; [left; exact E2|exact Hr']. }
    destruct (N.eqb_spec (esr_ec esr) EC_SMC) as [E3|E3].
    { unfold handle_realm_rsi. apply wp_bind, wp_bind.
      eapply wp_conseq; [apply (wp_rsi_dispatch c gh G V I L S T HL HS v0 d (ev_att ev) R Ex Hc Ha)|intros []|].
      intros o s' (L' & S' & G' & labs & -> & H1 & H2 & GE & HO).
      cbv zeta.
      pose proof (eo_rsi c h gh G d ev v simd labs o Hx E3 HO) as EO. unfold rsi_result in EO.
      set (r1 := if ra_update (snd o) then set_results (v_rec (fst o)) (ra_x (snd o)) else v_rec (fst o)) in *.
      destruct (ra_abort (snd o)) eqn:Eab.
      - unfold emulate_stage2_data_abort. apply wp_bind, wp_bind.
        destruct ((0 <=? ra_level (snd o))%Z && (ra_level (snd o) <=? 3)%Z) eqn:Lv.
        2:{ apply panic_wp. intros (_ & K). rewrite Hx in K. destruct K as (K & _). specialize (K E3).
            inversion HO; subst o; try discriminate. cbn [snd ra_level s2_fault] in Lv.
            rewrite Ex in K.
            match goal with X : (s2_sl (rd_ctx d) <= level <= 3)%Z |- _ => clear -Lv K X end. lia. }
        specialize (EO ltac:(intros _; clear -Lv; lia)).
        apply wp_ret. cbv zeta. apply wp_ret, wp_ret, wp_ret. unfold Q. cbn [fst snd] in *.
        destruct (negb (ra_exit (snd o))); apply wp_ret; exists L', S', G', labs; (split; [reflexivity|]; repeat (split; [assumption|]); exact EO).
      - specialize (EO ltac:(discriminate)). apply wp_ret, wp_ret. unfold Q. cbn [fst snd] in *.
        destruct (negb (ra_exit (snd o))); apply wp_ret; exists L', S', G', labs; (split; [reflexivity|]; repeat (split; [assumption|]); exact EO). }
    destruct (N.eqb_spec (esr_ec esr) EC_SYSREG) as [E4|E4].
    { unfold handle_sysreg_access_trap. apply wp_bind, wp_bind.
      destruct (has esr ESR_IL) eqn:IL.
      2:{ apply panic_wp. intros (_ & K). rewrite Hx in K. destruct K as (_ & K & _). destruct (K E4) as (K1 & _). fold esr in K1. congruence. }
      apply wp_ret.
      destruct (N.eqb_spec (N.land esr ESR_EL2_SYSREG_ID_MASK) ESR_EL2_SYSREG_ID) as [E5|E5].
      { unfold handle_id_sysreg_trap. apply wp_bind, wp_bind. destruct (sysreg_is_write esr) eqn:Wr; cbn [negb].
        { apply panic_wp. intros (_ & K). rewrite Hx in K. destruct K as (_ & K & _). destruct (K E4) as (_ & K1 & _). fold esr in K1. specialize (K1 E5). congruence. }
        apply wp_ret, wp_ret, wp_ret. apply wp_ret. cbn [fst snd]. apply SY; try reflexivity; [rewrite E4; discriminate|]. apply so_id; assumption. }
      assert (ICC : (N.land esr ESR_ICC_EL1_MASK = ESR_ICC_EL1 \/ N.land esr ESR_EL2_SYSREG_MASK = ESR_ICC_PMR_EL1) ->
        wp E (x1 <- handle_icc_el1_sysreg_trap r (v_exit v0) esr ;; Ret (r, x1, false)) (mkS L S G V T)
          (fun o s' => wp E (Ret (mkV (advance_pc (fst (fst o))) (snd (fst o)) (v_att v), simd, snd o)) s' Q)).
      { intro HI. unfold handle_icc_el1_sysreg_trap. cbv zeta. apply wp_bind, wp_bind.
        destruct (existsb (N.eqb (N.land esr ESR_EL2_SYSREG_MASK)) [ESR_ICC_DIR; ESR_ICC_SGI1R; ESR_ICC_SGI0R]) eqn:X1.
        2:{ apply panic_wp. intros (_ & K). rewrite Hx in K. destruct K as (_ & K & _). destruct (K E4) as (_ & _ & K1). fold esr in K1. destruct (K1 HI) as (K2 & _).
            assert (X2 : existsb (N.eqb (N.land esr ESR_EL2_SYSREG_MASK)) [ESR_ICC_DIR; ESR_ICC_SGI1R; ESR_ICC_SGI0R] = true).
            { apply existsb_exists. eexists. split; [exact K2|]. apply N.eqb_refl. }
            congruence. }
        apply wp_ret. apply wp_bind. destruct (sysreg_is_write esr) eqn:Wr.
        2:{ apply panic_wp. intros (_ & K). rewrite Hx in K. destruct K as (_ & K & _). destruct (K E4) as (_ & _ & K1). fold esr in K1. destruct (K1 HI) as (_ & K2). congruence. }
        apply wp_ret, wp_ret, wp_ret. apply wp_ret. cbn [fst snd]. apply SY; try reflexivity; [rewrite E4; discriminate|]. apply so_icc; try assumption.
        apply existsb_exists in X1. destruct X1 as (y & Y1 & Y2). apply N.eqb_eq in Y2. rewrite Y2. exact Y1. }
      destruct (N.eqb_spec (N.land esr ESR_ICC_EL1_MASK) ESR_ICC_EL1) as [E6|E6]; [apply ICC; auto|].
      destruct (N.eqb_spec (N.land esr ESR_EL2_SYSREG_MASK) ESR_ICC_PMR_EL1) as [E7|E7]; [apply ICC; auto|].
      apply wp_ret. apply wp_ret. cbn [fst snd]. apply SY; try reflexivity; [rewrite E4; discriminate|]. apply so_raz; assumption. }
    destruct (N.eqb_spec (esr_ec esr) EC_INST_ABORT) as [E8|E8].
    { apply wp_bind. eapply wp_conseq; [apply wp_inst_abort; assumption|intro K; exact K|].
      intros [[r' x'] go] s' (L' & S' & -> & H1 & H2 & HO). apply wp_ret. cbn [fst snd] in *. apply SY; assumption. }
    destruct (N.eqb_spec (esr_ec esr) EC_DATA_ABORT) as [E9|E9].
    { apply wp_bind. eapply wp_conseq; [apply wp_data_abort; assumption|intro K; exact K|].
      intros [[r' x'] go] s' (L' & S' & -> & H1 & H2 & HO). apply wp_ret. cbn [fst snd] in *. apply SY; assumption. }
    destruct ((esr_ec esr =? EC_FPU) || (esr_ec esr =? EC_SVE) || (esr_ec esr =? EC_SME)) eqn:SM.
    { unfold handle_simd_exception. cbv zeta. apply wp_bind.
      destruct ((esr_ec esr =? EC_SVE) && negb (sve_en (r_simd r)) || (esr_ec esr =? EC_SME) && (negb (sve_en (r_simd r)) || simd)) eqn:UN.
      - apply wp_bind, inject_un. intros r' Hr'. apply wp_ret. cbn [fst snd]. apply wp_ret. apply (SY r' (v_exit v0)); try reflexivity; try assumption.
        apply so_undef; [|exact Hr']. right. clear -UN. destruct (N.eqb_spec (esr_ec esr) EC_SVE) as [K|K], (N.eqb_spec (esr_ec esr) EC_SME) as [K'|K'];
          destruct (sve_en (r_simd r)), simd; try discriminate UN; auto.
      - apply wp_bind. assert (Es : simd = true \/ simd = false) by (clear; destruct simd; auto). destruct Es as [Es|Es].
        + replace (negb simd) with false by (rewrite Es; reflexivity).
          apply panic_wp. intros (_ & K). rewrite Hx in K. destruct K as (_ & _ & _ & K). destruct (K Es) as (K1 & K2). fold esr in K1, K2.
          destruct (N.eqb_spec (esr_ec esr) EC_FPU); [contradiction|]. destruct (N.eqb_spec (esr_ec esr) EC_SVE) as [E10|].
          * apply K2. split; [exact E10|]. destruct (sve_en (r_simd r)); [reflexivity|discriminate].
          * destruct (N.eqb_spec (esr_ec esr) EC_SME); [|discriminate]. rewrite Es in UN. cbn [negb andb orb] in UN. rewrite orb_true_r in UN. discriminate.
        + replace (negb simd) with true by (rewrite Es; reflexivity). apply wp_ret, wp_ret. cbn [fst snd]. apply wp_ret.
          refine (SY _ (v_exit v0) true true L S E3 _ _ _); try reflexivity. apply so_simd; [|exact Es].
          clear -SM UN. destruct (N.eqb_spec (esr_ec esr) EC_FPU), (N.eqb_spec (esr_ec esr) EC_SVE), (N.eqb_spec (esr_ec esr) EC_SME);
            destruct (sve_en (r_simd r)); try discriminate SM; try discriminate UN; auto. }
    apply wp_ret. apply (SY r (v_exit v0) simd false); try reflexivity; [assumption|]. apply so_none. fold esr. clear -E1 E2 E3 E4 E8 E9 SM.
    destruct (N.eqb_spec (esr_ec esr) EC_FPU), (N.eqb_spec (esr_ec esr) EC_SVE), (N.eqb_spec (esr_ec esr) EC_SME); try discriminate SM.
    intro K. repeat (destruct K as [K|K]; [congruence|]). destruct K.
  - apply wp_ret, run_same; try reflexivity. apply eo_irq, Hx.
  - apply wp_ret, run_same; try reflexivity. apply eo_fiq, Hx.
  - unfold handle_exception_serror_lel. apply wp_bind, wp_bind.
    destruct (has esr SERROR_IDS_BIT) eqn:S1; cbn [negb].
    { apply panic_wp. intros (_ & K). rewrite Hx in K. destruct K as (K & _). fold esr in K. congruence. }
    apply wp_ret, wp_bind. destruct (N.eqb_spec (N.land esr (MASK 6 0)) 1) as [S2|S2].
    2:{ apply panic_wp. intros (_ & K). rewrite Hx in K. destruct K as (_ & K & _). fold esr in K. contradiction. }
    apply wp_ret. cbv zeta.
    assert (FIN : forall r', r' = (if (N.land esr (MASK 3 10) =? SERROR_AET 1) || (N.land esr (MASK 3 10) =? SERROR_AET 3) then set_serror r esr true else r) -> forall x', x' = ex_set_esr (ex_set_reason (v_exit v) RMI_EXIT_SERROR) (N.land esr ESR_SERROR_MASK) ->
      wp E (Ret (v_set_rec (mkV r' x' (v_att v)) (set_last r' esr (ev_hpfar ev) (ev_far ev)), simd, false)) (mkS L S G V T)
      (run_post (exit_out c h gh G d ev v simd))).
    { intros r' Hr' x' ->. apply wp_ret, run_same; try reflexivity. exact (eo_serror c h gh G d ev v simd r' Hx Hr'). }
    destruct ((N.land esr (MASK 3 10) =? SERROR_AET 1) || (N.land esr (MASK 3 10) =? SERROR_AET 3)) eqn:A1.
    { apply wp_ret. apply FIN; reflexivity. }
    destruct ((N.land esr (MASK 3 10) =? SERROR_AET 6) || (N.land esr (MASK 3 10) =? SERROR_AET 2)) eqn:A2.
    { apply wp_ret. apply FIN; reflexivity. }
    apply panic_wp. intros (_ & K). rewrite Hx in K. destruct K as (_ & _ & K). fold esr in K.
    destruct K as [K|[K|[K|[K|[]]]]]; rewrite <- K, N.eqb_refl in *; rewrite ?orb_true_r in *; discriminate.
  - apply wp_ret, run_same; try reflexivity. apply eo_other, Hx.
Qed.
End Exit.

(* ------------------------------------------------------------------ *)
(** * RMI_REC_ENTER *)

(** What is known of a REC that waits for the host *)
Definition pend_ok (r : recd) : Prop :=
  realm_mode (r_pstate r) /\
  (r_host_call r = true -> sr_base (r_set_ripas r) = sr_top (r_set_ripas r) /\ esr_ec (r_last_esr r) = EC_SMC /\
     r_regs r 1 < 2 ^ (ipa_bits (r_ctx r) - 1) /\ r_regs r 1 mod 256 = 0) /\
  (r_psci_pending r = true -> In (u32 (r_regs r 0))
     [SMC32_PSCI_CPU_ON; SMC64_PSCI_CPU_ON; SMC32_PSCI_AFFINITY_INFO; SMC64_PSCI_AFFINITY_INFO]).
(** A REC that runs waits for nothing *)
Definition no_request (r : recd) : Prop :=
  r_host_call r = false /\ r_psci_pending r = false /\ sr_base (r_set_ripas r) = sr_top (r_set_ripas r) /\ r_runnable r = true.

(** rmi/run.c:264-289: the completion of the last exit; [None] when the command fails *)
Definition entry_rec (f : gicf) (r : recd) (e : rec_enter) : option recd :=
  let r1 := set_gic r (gic_copy_state_from_rec_entry f (r_gic r) e) in
  match complete_sea_insertion r1 e with
  | Some (Some r2) =>
    match complete_mmio_emulation r2 e with
    | Some r3 =>
      let q := r_set_ripas r3 in
      let resp := if has (en_flags e) FLAG_RIPAS_RESPONSE then REJECT else ACCEPT in
      let r4 := set_req r3 (mkReq (sr_base q) (sr_top q) (sr_addr q) (sr_ripas q) (sr_change_destroyed q) resp) in
      Some (complete_sysreg_emulation (complete_set_ripas r4) e)
    | None => None
    end
  | _ => None
  end.

Lemma sea_keeps : forall r e r2, complete_sea_insertion r e = Some (Some r2) ->
  ident r2 = ident r /\ pend r2 = pend r /\ r_last_esr r2 = r_last_esr r /\ r_regs r2 = r_regs r /\
  (realm_mode (r_pstate r) -> realm_mode (r_pstate r2)) /\ (has (en_flags e) FLAG_INJECT_SEA = false -> r2 = r).
Proof.
  intros r e r2 H. unfold complete_sea_insertion in H.
  destruct (has (en_flags e) FLAG_INJECT_SEA); cbn [negb] in H; [|injection H as <-; auto 8].
  destruct (negb _); [discriminate|]. destruct (addr_in_rec_par _ _); [discriminate|].
  destruct (inject_sync_idabort r (r_last_esr r) (r_last_far r) FSC_SEA) eqn:J; [|discriminate]. injection H as <-.
  apply inject_idabort_keeps in J. destruct J as (J1 & J2 & J3 & J4 & J5). repeat (split; [assumption|]).
  split; [intros _; rewrite J3; apply mode_init|discriminate].
Qed.
Lemma mmio_keeps : forall r e r2, complete_mmio_emulation r e = Some r2 ->
  ident r2 = ident r /\ pend r2 = pend r /\ r_last_esr r2 = r_last_esr r /\ r_pstate r2 = r_pstate r /\
  (esr_ec (r_last_esr r) <> EC_DATA_ABORT -> r_regs r2 = r_regs r).
Proof.
  intros r e r2 H. unfold complete_mmio_emulation in H. cbv zeta in H.
  destruct (negb (has (en_flags e) FLAG_EMUL_MMIO)); [injection H as <-; auto 8|].
  destruct (has (en_flags e) FLAG_INJECT_SEA); [injection H as <-; auto 8|].
  destruct (N.eqb_spec (esr_ec (r_last_esr r)) EC_DATA_ABORT) as [Hec|Hec]; cbn [negb orb] in H; [|discriminate].
  destruct (negb (has (r_last_esr r) ISV_BIT)); [discriminate|]. injection H as <-.
  destruct (negb (esr_is_write (r_last_esr r)) && negb (esr_srt (r_last_esr r) =? 31)); repeat (split; [reflexivity|]); intro N; contradiction.
Qed.
Lemma sysreg_keeps : forall r e, let r2 := complete_sysreg_emulation r e in
  ident r2 = ident r /\ pend r2 = pend r /\ r_last_esr r2 = r_last_esr r /\ r_pstate r2 = r_pstate r /\
  (esr_ec (r_last_esr r) <> EC_SYSREG -> r_regs r2 = r_regs r).
Proof.
  intros r e. unfold complete_sysreg_emulation. cbv zeta.
  destruct (N.eqb_spec (esr_ec (r_last_esr r)) EC_SYSREG) as [Hec|Hec]; cbn [negb]; [|auto 8].
  destruct (_ =? 0); [auto 8|]. destruct (_ =? 31); [auto 8|]. repeat (split; [reflexivity|]). intro N; contradiction.
Qed.
Lemma ripas_keeps : forall r, let r2 := complete_set_ripas r in
  ident r2 = ident r /\ r_host_call r2 = r_host_call r /\ r_psci_pending r2 = r_psci_pending r /\ r_runnable r2 = r_runnable r /\
  r_last_esr r2 = r_last_esr r /\ r_pstate r2 = r_pstate r /\
  sr_base (r_set_ripas r2) = sr_top (r_set_ripas r2) /\ (sr_base (r_set_ripas r) = sr_top (r_set_ripas r) -> r2 = r) /\
  (forall d, req_ok d (r_set_ripas r) -> req_ok d (r_set_ripas r2)).
Proof.
  intros r. unfold complete_set_ripas. cbv zeta.
  destruct (N.eqb_spec (sr_base (r_set_ripas r)) (sr_top (r_set_ripas r))) as [E|E]; [repeat (split; [reflexivity|]); auto|].
  repeat (split; [reflexivity|]). split; [intro; contradiction|]. intros d (H1 & H2 & H3 & H4).
  cbn [r_set_ripas set_req]. unfold req_ok. cbn [sr_base sr_top sr_addr]. split; [lia|]. split; [exact H2|]. split; [reflexivity|]. left. auto.
Qed.

Lemma entry_keeps : forall f r e r6, entry_rec f r e = Some r6 ->
  ident r6 = ident r /\ r_host_call r6 = r_host_call r /\ r_psci_pending r6 = r_psci_pending r /\ r_runnable r6 = r_runnable r /\
  sr_base (r_set_ripas r6) = sr_top (r_set_ripas r6) /\ (realm_mode (r_pstate r) -> realm_mode (r_pstate r6)) /\
  (forall d, req_ok d (r_set_ripas r) -> req_ok d (r_set_ripas r6)) /\ r_last_esr r6 = r_last_esr r /\
  (sr_base (r_set_ripas r) = sr_top (r_set_ripas r) -> esr_ec (r_last_esr r) = EC_SMC -> r_regs r6 = r_regs r).
Proof.
  intros f r e r6 H. unfold entry_rec in H. cbv zeta in H.
  set (r1 := set_gic r _) in *.
  destruct (complete_sea_insertion r1 e) as [[r2|]|] eqn:H2; try discriminate.
  apply sea_keeps in H2. destruct H2 as (A1 & A2 & A3 & A4 & A5 & A6).
  destruct (complete_mmio_emulation r2 e) as [r3|] eqn:H3; try discriminate.
  apply mmio_keeps in H3. destruct H3 as (B1 & B2 & B3 & B4 & B5).
  injection H as <-.
  set (r4 := set_req r3 _) in *. pose proof (ripas_keeps r4) as (C1 & C2 & C3 & C4 & C5 & C6 & C7 & C8 & C9).
  pose proof (sysreg_keeps (complete_set_ripas r4) e) as (D1 & D2 & D3 & D4 & D5).
  set (r6 := complete_sysreg_emulation (complete_set_ripas r4) e) in *. set (r5 := complete_set_ripas r4) in *.
  change (ident r4) with (ident r3) in C1. change (ident r1) with (ident r) in A1. change (pend r1) with (pend r) in A2.
  unfold pend in *. injection A2 as A21 A22 A23 A24. injection B2 as B21 B22 B23 B24. injection D2 as D21 D22 D23 D24.
  change (r_host_call r4) with (r_host_call r3) in C2. change (r_psci_pending r4) with (r_psci_pending r3) in C3.
  change (r_runnable r4) with (r_runnable r3) in C4. change (r_last_esr r4) with (r_last_esr r3) in C5.
  change (r_pstate r4) with (r_pstate r3) in C6. change (r_last_esr r1) with (r_last_esr r) in A3. change (r_regs r1) with (r_regs r) in A4.
  change (r_pstate r1) with (r_pstate r) in A5.
  split; [congruence|]. split; [congruence|]. split; [congruence|]. split; [congruence|]. split; [rewrite D21; exact C7|].
  split; [rewrite D4, C6, B4; exact A5|]. split.
  { intros d Q. rewrite D21. apply C9. unfold r4. cbn [r_set_ripas set_req]. rewrite B21, A21. exact Q. }
  split; [congruence|]. intros Eq Hec.
  assert (E4 : r5 = r4). { apply C8. unfold r4. cbn [r_set_ripas set_req sr_base sr_top]. rewrite B21, A21. exact Eq. }
  rewrite D5, E4; [|rewrite C5, B3, A3, Hec; discriminate]. unfold r4. change (r_regs (set_req r3 _)) with (r_regs r3).
  rewrite B5, A4; [reflexivity|]. rewrite A3, Hec. discriminate.
Qed.

(** Reasons why the command fails before the REC changes *)
Definition enter_bad (c : cfg) (h : hw) (G : N -> granule) (rec_addr run_addr : N) (enter : option rec_enter) (code : N) : Prop :=
  (code = RMI_ERROR_INPUT /\ (find_granule c run_addr = false \/ g_state (G run_addr) <> NS \/ find_granule c rec_addr = false \/
      g_state (G rec_addr) <> REC \/ enter = None)) \/
  (code = RMI_ERROR_REC /\ g_ref (G rec_addr) <> 0) \/
  (exists r d, is_rec G rec_addr r /\ is_rd G (r_g_rd r) d /\
     ((code = pack_return_code RMI_ERROR_REALM 0 /\ rd_state d = REALM_NEW) \/
      (code = pack_return_code RMI_ERROR_REALM 1 /\ rd_state d = REALM_SYSTEM_OFF) \/
      (code = RMI_ERROR_REC /\ (r_runnable r = false \/ r_psci_pending r = true \/
         exists e, enter = Some e /\ gic_validate_state (h_gic h) e = false)))).

(** The completion of a host call *)
Definition hc_out (gh : ghost) (G : N -> granule) (rd : N) (x : s2ctx) (r6 : recd) (e : rec_enter) (labs : list label) (o : recd + Z) : Prop :=
  (r_host_call r6 = false /\ labs = [] /\ o = inl r6) \/
  (r_host_call r6 = true /\ exists l b pa g f, Leaf gh rd (r_regs r6 1 / 4096) l b (EAsRam pa) /\
     g = pa + (r_regs r6 1 / 4096) mod pg l * 4096 /\ dmap gh g = Some (rd, r_regs r6 1 / 4096) /\ g_mem (G g) = CW f /\
     labs = [LFree g (mkG DATA 0 (CW (host_call_write f (r_regs r6 1 mod 4096) (en_gprs e))))] /\
     o = inl (set_host_call (set_reg r6 0 RSI_SUCCESS) false)) \/
  (r_host_call r6 = true /\ labs = [] /\ exists l b z, Leaf gh rd (r_regs r6 1 / 4096) l b z /\ (forall pa, z <> EAsRam pa) /\
     (s2_sl x <= l <= 3)%Z /\
     o = match e_ripas z with EMPTY => inl (set_host_call r6 false) | _ => inr l end).

(** The registers of the REC when it starts to run *)
Definition start_rec (r7 : recd) (e : rec_enter) : recd :=
  let r1 := set_last_esr r7 0 in set_sysreg r1 HCR_EL2 (entry_hcr r1 e).

(** The answer to the host *)
Definition answer (wok : bool) (x : rec_exit) : enter_out :=
  if wok then EReturn RMI_SUCCESS (Some x) else EReturn RMI_ERROR_INPUT None.

Definition fault_exit (r : recd) (x : rec_exit) (level : Z) : rec_exit :=
  ex_set_reason (ex_set_hpfar (ex_set_far (ex_set_esr x
         (N.lor EC_DATA_ABORT (FSC_TRANSLATION_FAULT_L0 + Z.to_N level))) 0) (N.shiftr (r_regs r 1) 8)) RMI_EXIT_SYNC.

Inductive ent_out (c : cfg) (h : hw) (fi : fin) (tm : timers) (gh : ghost) (G : N -> granule) (rec_addr run_addr : N)
    (enter : option rec_enter) (a : att) : list label -> enter_out -> Prop :=
| en_bad : forall code, enter_bad c h G rec_addr run_addr enter code ->
    ent_out c h fi tm gh G rec_addr run_addr enter a [] (EReturn code None)
| en_touch : forall r d e, enter = Some e -> is_rec G rec_addr r -> g_ref (G rec_addr) = 0 -> is_rd G (r_g_rd r) d -> rd_state d = REALM_ACTIVE ->
    r_runnable r = true -> r_psci_pending r = false -> gic_validate_state (h_gic h) e = true -> entry_rec (h_gic h) r e = None ->
    ent_out c h fi tm gh G rec_addr run_addr enter a
      [LRec rec_addr r (set_gic r (gic_copy_state_from_rec_entry (h_gic h) (r_gic r) e)) 0] (EReturn RMI_ERROR_REC None)
| en_fault : forall r d e r6 l, enter = Some e -> is_rec G rec_addr r -> g_ref (G rec_addr) = 0 -> is_rd G (r_g_rd r) d -> rd_state d = REALM_ACTIVE ->
    r_runnable r = true -> r_psci_pending r = false -> gic_validate_state (h_gic h) e = true -> entry_rec (h_gic h) r e = Some r6 ->
    hc_out gh G (r_g_rd r) (r_ctx r) r6 e [] (inr l) -> (0 <= l)%Z ->
    ent_out c h fi tm gh G rec_addr run_addr enter a [LRec rec_addr r r6 0] (answer (fi_wok fi) (fault_exit r6 exit_zero l))
| en_run : forall r r1 d e r6 hl r7 l, enter = Some e -> is_rec G rec_addr r -> g_ref (G rec_addr) = 0 -> is_rd G (r_g_rd r) d -> rd_state d = REALM_ACTIVE ->
    r_runnable r = true -> r_psci_pending r = false -> gic_validate_state (h_gic h) e = true -> entry_rec (h_gic h) r e = Some r6 ->
    hc_out gh G (r_g_rd r) (r_ctx r) r6 e hl (inl r7) ->
    r1 = set_gic r (gic_copy_state_from_rec_entry (h_gic h) (r_gic r) e) ->
    l = loop_head tm (mkV (start_rec r7 e) exit_zero a) -> snd l = true ->
    ent_out c h fi tm gh G rec_addr run_addr enter a (LRec rec_addr r r1 1 :: hl ++ [LRec rec_addr r1 (v_rec (fst l)) 1]) (ERun (v_exit (fst l)))
| en_timer : forall r r1 d e r6 hl r7 l v', enter = Some e -> is_rec G rec_addr r -> g_ref (G rec_addr) = 0 -> is_rd G (r_g_rd r) d -> rd_state d = REALM_ACTIVE ->
    r_runnable r = true -> r_psci_pending r = false -> gic_validate_state (h_gic h) e = true -> entry_rec (h_gic h) r e = Some r6 ->
    hc_out gh G (r_g_rd r) (r_ctx r) r6 e hl (inl r7) ->
    r1 = set_gic r (gic_copy_state_from_rec_entry (h_gic h) (r_gic r) e) ->
    l = loop_head tm (mkV (start_rec r7 e) exit_zero a) -> snd l = false ->
    v' = run_end (h_gic h) fi (fst l, false) ->
    ent_out c h fi tm gh G rec_addr run_addr enter a (LRec rec_addr r r1 1 :: hl ++ [LRec rec_addr r1 (v_rec v') 0]) (answer (fi_wok fi) (v_exit v')).

(** The slots of a processor that runs a REC *)
Definition busy (z : N) : bool := (z =? SLOT_REC) || ((SLOT_REC_AUX0 <=? z) && (z <? SLOT_RTT)).

Lemma busy_ok : forall S, (forall z, S z = busy z) -> slots_ok S.
Proof. intros S H. unfold slots_ok. rewrite !H. repeat split; reflexivity. Qed.
Lemma free_ok : forall S, free S -> slots_ok S.
Proof. intros S H. unfold slots_ok. rewrite !H. auto. Qed.

Section Enter.
Variables (c : cfg) (gh : ghost) (G : N -> granule) (V : N -> bool).
Hypothesis I : Inv c gh G V.

Lemma rec_label : forall a r r' n G', is_rec G a r -> ident r' = ident r ->
  (forall d, rd_ctx d = r_ctx r -> req_ok d (r_set_ripas r) -> req_ok d (r_set_ripas r')) -> n <= 1 ->
  (forall z, G' z = upd G a (mkG REC n (CRec r')) z) -> geff c gh G V (LRec a r r' n) gh G' V.
Proof.
  intros a r r' n G' R E Q Hn HG. unfold ident in E. pose proof E as E0. injection E0 as E1 E2 E3 E4 E5 E6 E7 E8 E9 E10 E11 E12 E13.
  apply g_rec; try assumption.
  - intros d _ RO. eapply ident_ok; [exact E| |exact RO]. apply Q; [symmetry|]; apply RO.
  - rewrite HG. apply upd_same.
  - intros z nz. rewrite HG. apply upd_other, nz.
Qed.

Lemma wp_enter_out : forall (E : Prop) (a code : N) (x : rec_exit) (wok : bool) L S T (Q : N * option rec_exit -> state -> Prop),
  S SLOT_REC = true -> S SLOT_NS = false -> g_ref (G a) = 1 ->
  (forall S' G', (forall z, S' z = upd S SLOT_REC false z) -> (forall z, G' z = upd G a (mkG (g_state (G a)) 0 (g_mem (G a))) z) ->
     Q (if code =? RMI_SUCCESS then (if wok then (RMI_SUCCESS, Some x) else (RMI_ERROR_INPUT, None)) else (code, None)) (mkS L S' G' V T)) ->
  wp E (rec_enter_out a code x wok) (mkS L S G V T) Q.
Proof.
  intros E a code x wok L S T Q H1 H2 H3 HQ. unfold rec_enter_out.
  apply wp_bind, wp_unmap_slot; [exact H1|].
  assert (K : forall o S', (forall z, S' z = upd S SLOT_REC false z) ->
     o = (if code =? RMI_SUCCESS then (if wok then (RMI_SUCCESS, Some x) else (RMI_ERROR_INPUT, None)) else (code, None)) ->
     wp E (atomic_granule_put_release a ;;; Ret o) (mkS L S' G V T) Q).
  { intros o S' HS ->. apply wp_bind, wp_put_release; [lia|]. apply wp_ret, HQ; [exact HS|]. rewrite H3. reflexivity. }
  apply wp_bind. destruct (code =? RMI_SUCCESS).
  - apply wp_bind, wp_ns_access; [rewrite upd_other by discriminate; exact H2|]. intros S' HS. apply wp_ret. apply K; [exact HS|]. destruct wok; reflexivity.
  - apply wp_ret. apply K; reflexivity.
Qed.

Lemma wp_finish : forall (E : Prop) f fi a r x at_ simd L S T (Q : N * option rec_exit -> state -> Prop),
  is_rec G a r -> g_ref (G a) = 1 -> length (r_aux r) = 16%nat -> (forall z, S z = busy z) ->
  (forall S' G', free S' -> (forall z, G' z = upd G a (mkG REC 0 (CRec (v_rec (run_end f fi (mkV r x at_, simd))))) z) ->
     Q (if fi_wok fi then (RMI_SUCCESS, Some (v_exit (run_end f fi (mkV r x at_, simd)))) else (RMI_ERROR_INPUT, None)) (mkS L S' G' V T)) ->
  wp E (rec_run_finish f fi a x at_ simd) (mkS L S G V T) Q.
Proof.
  intros E f fi a r x at_ simd L S T Q [St M] Rf La HS HQ. unfold rec_run_finish.
  apply wp_bind. eapply wp_get_rec; [rewrite M; reflexivity|]. cbv zeta.
  set (v' := run_end f fi (mkV r x at_, simd)) in *.
  apply wp_bind, wp_put_rec. apply wp_bind, wp_unmap_aux.
  { intros z Hz. rewrite La in Hz. rewrite HS. unfold busy. change (N.of_nat 16) with 16 in Hz. change SLOT_REC_AUX0 with 6 in *. change SLOT_RTT with 22. clear -Hz. lia. }
  intros S1 HS1. rewrite La in HS1. change (N.of_nat 16) with 16 in HS1.
  assert (K : forall z, S1 z = (z =? SLOT_REC)).
  { intro z. rewrite HS1, HS. unfold busy. change SLOT_REC_AUX0 with 6 in *. change SLOT_RTT with 22. change SLOT_REC with 3. clear. lia. }
  unfold rec_enter_out. apply wp_bind, wp_unmap_slot; [rewrite K; reflexivity|].
  assert (PUT : forall o S', free S' -> o = (if fi_wok fi then (RMI_SUCCESS, Some (v_exit v')) else (RMI_ERROR_INPUT, None)) ->
     wp E (atomic_granule_put_release a ;;; Ret o) (mkS L S' (upd G a (mkG (g_state (G a)) (g_ref (G a)) (CRec (v_rec v')))) V T) Q).
  { intros o S' F ->. apply wp_bind, wp_put_release; [rewrite upd_same; cbn [g_ref]; lia|]. apply wp_ret, HQ; [exact F|].
    intro z. unfold upd. destruct (N.eqb_spec z a) as [->|]; [|reflexivity]. rewrite N.eqb_refl. cbn [g_state g_ref g_mem]. rewrite St, Rf. reflexivity. }
  apply wp_bind. change (RMI_SUCCESS =? RMI_SUCCESS) with true. cbn iota.
  apply wp_bind, wp_ns_access; [rewrite upd_other by discriminate; rewrite K; reflexivity|]. intros S' HS'. apply wp_ret. apply PUT.
  - intro z. rewrite HS'. unfold upd. destruct (z =? SLOT_REC) eqn:Ez; [reflexivity|]. rewrite K. exact Ez.
  - destruct (fi_wok fi); reflexivity.
Qed.
End Enter.

Lemma start_keeps : forall r e, ident (start_rec r e) = ident r /\ pend (start_rec r e) = pend r /\ r_pstate (start_rec r e) = r_pstate r /\ r_regs (start_rec r e) = r_regs r.
Proof. repeat split; reflexivity. Qed.
Lemma head_keeps : forall tm v, let l := loop_head tm v in ident (v_rec (fst l)) = ident (v_rec v) /\ pend (v_rec (fst l)) = pend (v_rec v) /\
  r_pstate (v_rec (fst l)) = r_pstate (v_rec v) /\ r_regs (v_rec (fst l)) = r_regs (v_rec v) /\ r_last_esr (v_rec (fst l)) = r_last_esr (v_rec v) /\ v_att (fst l) = v_att v.
Proof.
  intros tm v. unfold loop_head. cbv zeta. destruct (snd (check_pending_timers (v_rec v) tm)); cbn [fst v_rec v_set_rec v_att]; [repeat split; reflexivity|].
  unfold activate_events. destruct (r_serror_inject _); repeat split; reflexivity.
Qed.
Lemma end_keeps : forall f fi (v : vcpu) (simd : bool), let v' := run_end f fi (v, simd) in ident (v_rec v') = ident (v_rec v) /\ pend (v_rec v') = pend (v_rec v) /\
  r_pstate (v_rec v') = r_pstate (v_rec v) /\ r_regs (v_rec v') = r_regs (v_rec v) /\ r_last_esr (v_rec v') = r_last_esr (v_rec v) /\ v_att v' = v_att v.
Proof. intros. unfold run_end, save_realm_state. cbv zeta. cbn [fst snd]. destruct simd; repeat split; reflexivity. Qed.
Lemma hc_keeps : forall gh G rd x r6 e labs r7, hc_out gh G rd x r6 e labs (inl r7) ->
  ident r7 = ident r6 /\ r_set_ripas r7 = r_set_ripas r6 /\ r_host_call r7 = false /\ r_psci_pending r7 = r_psci_pending r6 /\
  r_runnable r7 = r_runnable r6 /\ r_pstate r7 = r_pstate r6 /\ (forall i, i <> 0 -> r_regs r7 i = r_regs r6 i).
Proof.
  intros gh G rd x r6 e labs r7 [(H & _ & E)|[(H & l & b & pa & g & f & _ & _ & _ & _ & _ & E)|(H & _ & l & b & z & _ & _ & _ & E)]].
  - injection E as ->. repeat (split; [reflexivity|]). split; [exact H|]. auto.
  - injection E as ->. repeat (split; [reflexivity|]). intros i n. apply upd_other, n.
  - destruct (e_ripas z); try discriminate. injection E as ->. repeat split; reflexivity.
Qed.
