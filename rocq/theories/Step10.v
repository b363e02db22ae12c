(** What an exit tells the host (C21). *)
From Coq Require Import NArith ZArith List Bool Lia.
From Verif Require Import Bits S2tte S2tteFacts State Granule Wp RecFields RmiRec Psci Gic Esr Rsi RecRun Arch Mmu Machine Spec SpecStep SpecExit SpecRec
  ExitFacts Inv InvTree Effects CmdLib CmdRec CmdRsi CmdRsi2 CmdRun CmdRun2 CmdAll MInv MStep View Mpidr Own StepView Step Step2 Step3 Step4 Step5 Step6 Step7 Step8 Step9.
Import ListNotations.
Local Open Scope N_scope.

(** ** Masks *)
Definition mask_of (l : list (N * N)) : N := fold_right (fun f s => N.lor (MASK (snd f) (fst f)) s) 0 l.
Fixpoint apart (l : list (N * N)) : bool :=
  match l with [] => true | f :: l' => (N.land (MASK (snd f) (fst f)) (mask_of l') =? 0) && apart l' end.
Lemma land_kept : forall w l, apart l = true -> N.land w (mask_of l) = kept w l.
Proof.
  intros w l. induction l as [|[s k] l IH]; cbn [apart mask_of fold_right kept fst snd]; intro A; [apply N.land_0_r|].
  apply andb_prop in A. destruct A as [A1 A2]. apply N.eqb_eq in A1. fold (mask_of l) in *. fold (kept w l).
  rewrite N.land_lor_distr_r. rewrite lor_disjoint_add.
  - rewrite land_mask_field, IH by exact A2. reflexivity.
  - rewrite (N.land_comm w (mask_of l)), N.land_assoc, <- (N.land_assoc w), A1, N.land_0_r. reflexivity.
Qed.
Lemma nonemulated_kept : forall w, N.land w ESR_NONEMULATED_ABORT_MASK = kept w abort_fields.
Proof. intro w. replace ESR_NONEMULATED_ABORT_MASK with (mask_of abort_fields) by (vm_compute; reflexivity). apply land_kept. vm_compute. reflexivity. Qed.
Lemma emulated_kept : forall w, N.land w ESR_EMULATED_ABORT_MASK = kept w access_fields.
Proof. intro w. replace ESR_EMULATED_ABORT_MASK with (mask_of access_fields) by (vm_compute; reflexivity). apply land_kept. vm_compute. reflexivity. Qed.
Lemma serror_kept : forall w, N.land w ESR_SERROR_MASK = kept w serror_fields.
Proof. intro w. replace ESR_SERROR_MASK with (mask_of serror_fields) by (vm_compute; reflexivity). apply land_kept. vm_compute. reflexivity. Qed.
Lemma wait_kept : forall w, N.land w (N.lor EC_MASK 1) = kept w wait_fields.
Proof. intro w. replace (N.lor EC_MASK 1) with (mask_of wait_fields) by (vm_compute; reflexivity). apply land_kept. vm_compute. reflexivity. Qed.
Lemma isv_kept : forall w, N.land (N.ldiff w ISV_BIT) ESR_NONEMULATED_ABORT_MASK = kept w abort_fields.
Proof.
  intro w. rewrite <- nonemulated_kept. apply N.bits_inj. intro n. rewrite !N.land_spec, N.ldiff_spec.
  destruct (N.testbit ESR_NONEMULATED_ABORT_MASK n) eqn:E; [|rewrite !andb_false_r; reflexivity]. rewrite !andb_true_r.
  unfold ISV_BIT. rewrite N.pow2_bits_eqb. destruct (N.eqb_spec 24 n) as [<-|]; [vm_compute in E; discriminate E|]. apply andb_true_r.
Qed.

Lemma class_ec : forall ev n, n < 64 -> esr_ec (ev_esr ev) = EC n <-> class ev = n.
Proof.
  intros ev n L. unfold class. pose proof (esr_ec_field (ev_esr ev) n L) as E. split; intro K.
  - apply N.eqb_eq. rewrite <- E. apply N.eqb_eq, K.
  - apply N.eqb_eq. rewrite E. apply N.eqb_eq, K.
Qed.
Lemma fsc_field : forall w, N.land w FSC_MASK = field w 0 6.
Proof. intro w. unfold FSC_MASK. rewrite land_mask_field. change (2 ^ 0) with 1. lia. Qed.
Lemma external_iff : forall w, fsc_is_external_abort (N.land w FSC_MASK) = true <-> external w.
Proof. intro w. rewrite fsc_field. unfold fsc_is_external_abort, external, FSC_SEA. lia. Qed.
Lemma par_iff : forall r hp, 0 < ipa_bits (r_ctx r) -> addr_in_rec_par r (hpfar_fipa hp) = true <-> protected (r_ctx r) (fault_ipa hp).
Proof.
  intros r hp IB. unfold addr_in_rec_par, protected. rewrite fipa_eq.
  replace (rec_par_size r) with (2 ^ (ipa_bits (r_ctx r) - 1)); [lia|].
  unfold rec_par_size, rec_ipa_size. rewrite shift_half. replace (ipa_bits (r_ctx r)) with (N.succ (ipa_bits (r_ctx r) - 1)) at 2 by lia.
  rewrite N.pow_succ_r'. rewrite N.mul_comm. symmetry. apply N.div_mul. discriminate.
Qed.
Lemma a32_iff : forall r, is_aarch32 r = aarch32 (r_pstate r).
Proof. intro r. unfold is_aarch32, aarch32. apply has_field. Qed.
Lemma access_mod : forall w esr, N.land w (access_mask esr) = w mod 2 ^ (8 * 2 ^ field esr 22 2).
Proof.
  intros w esr. unfold access_mask, esr_sas. rewrite extract_field. pose proof (field_lt esr 22 2) as L. change (2 ^ 2) with 4 in L.
  assert (C : field esr 22 2 = 0 \/ field esr 22 2 = 1 \/ field esr 22 2 = 2 \/ field esr 22 2 = 3) by lia.
  destruct C as [-> |[-> |[-> | ->]]]; rewrite N.land_ones; reflexivity.
Qed.
Lemma store_value : forall r esr, get_dabt_write_value r esr = source r (field esr 16 5) mod 2 ^ (8 * 2 ^ field esr 22 2).
Proof.
  intros r esr. unfold get_dabt_write_value, source, esr_srt. rewrite extract_field. destruct (_ =? 31); [|apply access_mod].
  symmetry. apply N.mod_0_l. apply N.pow_nonzero. discriminate.
Qed.

(** ** Reports *)
Lemma report_told : forall x y reason esr far hpfar g b t v i, told x = told y -> report y reason esr far hpfar g b t v i -> report x reason esr far hpfar g b t v i.
Proof.
  intros x y reason esr far hpfar g b t v i E. unfold told in E.
  assert (K : forall (A B C D X Y Z T U : Type) (a a' : A) (b b' : B) (c c' : C) (d d' : D) (x x' : X) (y y' : Y) (z z' : Z) (t t' : T) (u u' : U),
    (a, (b, c, d), x, (y, z, t), u) = (a', (b', c', d'), x', (y', z', t'), u') -> a = a' /\ b = b' /\ c = c' /\ d = d' /\ x = x' /\ y = y' /\ z = z' /\ t = t' /\ u = u').
  { intros. injection H as -> -> -> -> -> -> -> -> ->. auto 10. }
  apply K in E. destruct E as (E1 & E2 & E3 & E4 & E5 & E6 & E7 & E8 & E9). unfold report. rewrite E1, E2, E3, E4, E5, E6, E7, E8, E9. auto.
Qed.

Lemma report_eq : forall x reason esr far hpfar g b t v i, ex_reason x = reason -> ex_esr x = esr -> ex_far x = far -> ex_hpfar x = hpfar ->
  (forall n, ex_gprs x n = g n) -> ex_ripas_base x = b -> ex_ripas_top x = t -> ex_ripas_value x = v -> ex_imm x = i -> report x reason esr far hpfar g b t v i.
Proof. intros. unfold report. auto 10. Qed.

Lemma gprs_one : forall v n, upd no_gprs 0 v n = one_gpr v n.
Proof. intros. reflexivity. Qed.

Lemma sync_tells : forall m o a d h gh r simd ev r' x' simd', ev_exc ev = ExcSync -> esr_ec (ev_esr ev) <> EC_SMC -> 0 < ipa_bits (r_ctx r) ->
  sync_out h gh r (ex_set_reason exit_zero RMI_EXIT_SYNC) simd (ev_esr ev) (ev_far ev) (ev_hpfar ev) r' x' simd' false -> tells m o a d r ev x'.
Proof.
  intros m o a d h gh r simd ev r' x' simd' X NS IB H. remember false as go eqn:EG. destruct H as [E| | |E E2 E3 E4| |r' E E2 E3 E4|E E2 E3| |E E2 E3 E4|x' E E2 E3 E4 E5 ->| |E]; try discriminate EG.
  - apply tl_wait; [exact X|apply class_ec; [reflexivity|exact E]|]. rewrite wait_kept. apply report_eq; reflexivity.
  - apply tl_icc; [exact X|apply class_ec; [reflexivity|exact E]| |].
    + unfold sysreg_is_write in E4. apply N.eqb_eq in E4. change 1 with (N.ones 1) in E4. rewrite N.land_ones in E4. change (2 ^ 1) with 2 in E4.
      rewrite <- N.bit0_mod in E4. destruct (N.testbit (ev_esr ev) 0); [discriminate E4|reflexivity].
    + apply report_eq; try reflexivity. intro n. cbn [ex_gprs ex_set_gprs ex_set_esr ex_set_reason]. unfold get_sysreg_write_value, source, sysreg_rt. rewrite extract_field. reflexivity.
  - apply tl_external; [exact X| |apply external_iff, E2|].
    + destruct E as [E|[E|[]]]; [left|right; left]; symmetry; apply class_ec; try reflexivity; symmetry; exact E.
    + rewrite nonemulated_kept. apply report_eq; reflexivity.
  - apply tl_external; [exact X| |apply external_iff, E2|].
    + destruct E as [E|[E|[]]]; [left|right; left]; symmetry; apply class_ec; try reflexivity; symmetry; exact E.
    + rewrite nonemulated_kept. apply report_eq; reflexivity.
  - assert (NE : ~ external (ev_esr ev)) by (intro K; apply external_iff in K; congruence).
    apply class_ec in E; [|reflexivity]. rewrite fipa_eq in E3. unfold dabt_exit. cbv zeta.
    destruct (is_aarch32 r || addr_in_rec_par r (hpfar_fipa (ev_hpfar ev))) eqn:B.
    + apply tl_private; [exact X|exact NE|exact E3| |].
      * left. split; [exact E|]. apply orb_prop in B. destruct B as [B|B]; [right; rewrite <- a32_iff; exact B|left; apply par_iff in B; assumption].
      * apply report_eq; try reflexivity.
        -- cbn [ex_esr ex_set_gprs ex_set_hpfar ex_set_far ex_set_esr]. destruct (is_aarch32 r); [apply isv_kept|apply nonemulated_kept].
        -- intro n. cbn. unfold upd. destruct (n =? 0); reflexivity.
    + apply orb_false_elim in B. destruct B as [B1 B2]. apply tl_shared; [exact X|exact E|exact NE|exact E3| |rewrite <- a32_iff; exact B1|].
      * intro K. apply par_iff in K; [congruence|exact IB].
      * apply report_eq; try reflexivity.
        -- apply emulated_kept.
        -- cbn [ex_far ex_set_gprs ex_set_hpfar ex_set_far]. change 4095 with (N.ones 12). rewrite N.land_ones. reflexivity.
        -- intro n. cbn [ex_gprs ex_set_gprs]. unfold esr_is_write, WNR_BIT. rewrite has_pow2, store_value. reflexivity.
  - apply class_ec in E; [|reflexivity]. destruct (N.ldiff _ 3 =? _).
    + apply tl_private; [exact X|intro K; apply external_iff in K; congruence|rewrite <- fipa_eq; exact E3|right; split; [exact E|apply par_iff; assumption]|].
      rewrite nonemulated_kept. apply report_eq; reflexivity.
    + apply tl_other; [right; auto|]. apply report_eq; reflexivity.
  - apply tl_other; [right|apply report_eq; reflexivity]. split; [exact X|]. right. intro K. apply E.
    unfold EC_WFX, EC_HVC, EC_SMC, EC_SYSREG, EC_INST_ABORT, EC_DATA_ABORT, EC_FPU, EC_SVE, EC_SME.
    cbn [In] in K |- *. repeat (destruct K as [K|K]; [symmetry in K; apply class_ec in K; [rewrite K; tauto|reflexivity]|]). contradiction.
Qed.

Lemma ram_words : forall c gh G V d rd ipa g f, Inv c gh G V -> is_rd G rd d -> ipa < 2 ^ (ipa_bits (rd_ctx d) - 1) ->
  ram_page gh rd (ipa / 4096) g -> g_mem (G g) = CW f -> page_words G (page_at G (rd_ctx d) ipa) = Some f.
Proof.
  intros c gh G V d rd ipa g f I R L (l & b & pa & LF & -> & _) E. assert (Hi : ipa < 2 ^ ipa_bits (rd_ctx d)).
  { eapply N.lt_le_trans; [exact L|]. apply N.pow_le_mono_r; [discriminate|lia]. }
  destruct (view_leaf _ _ _ _ I _ _ _ _ _ _ R Hi LF) as [-> _]. cbn [view_e page_words]. unfold at_page. rewrite E. reflexivity.
Qed.
Lemma no_ram : forall c gh G V d rd ipa l b e, Inv c gh G V -> is_rd G rd d -> ipa < 2 ^ (ipa_bits (rd_ctx d) - 1) ->
  Leaf gh rd (ipa / 4096) l b e -> (forall pa, e <> EAsRam pa) -> no_memory G (rd_ctx d) ipa.
Proof.
  intros c gh G V d rd ipa l b e I R L LF NE pa. assert (Hi : ipa < 2 ^ ipa_bits (rd_ctx d)).
  { eapply N.lt_le_trans; [exact L|]. apply N.pow_le_mono_r; [discriminate|lia]. }
  destruct (view_leaf _ _ _ _ I _ _ _ _ _ _ R Hi LF) as [-> _]. destruct e; cbn [view_e]; try discriminate. exfalso. eapply NE. reflexivity.
Qed.

Lemma tells_told : forall m o a d r ev x y, told x = told y -> tells m o a d r ev y -> tells m o a d r ev x.
Proof.
  intros m o a d r ev x y E H. destruct H; [eapply tl_irq|eapply tl_fiq|eapply tl_other|eapply tl_serror|eapply tl_wait|eapply tl_icc|eapply tl_external|eapply tl_private|eapply tl_shared
    |eapply tl_ripas|eapply tl_host|eapply tl_psci|eapply tl_power|eapply tl_fault]; try eassumption; eapply report_told; eassumption.
Qed.

Lemma tells_step : forall c h m p ev fi tm m' x a r d, next c h m (OExit p ev fi tm) m' (Exited RMI_SUCCESS (Some x)) ->
  executes m p a -> rec_is m a r -> realm m (r_g_rd r) d -> tells m (OExit p ev fi tm) a d r ev x.
Proof.
  intros c h m p ev fi tm m' x a r d H EX R RD1. pose proof H as (RCH & _). pose proof (bits_pos _ _ _ _ _ RCH R) as IB.
  destruct (exit_step _ _ _ _ _ _ _ _ _ H) as (gh & a1 & r1 & d1 & simd & labs & v1 & simd' & go & r' & M & EX1 & R1 & RD2 & R' & NR & EC & EO & _ & _ & _ & RP).
  assert (a1 = a) by (destruct EX as (ru & X1 & X2), EX1 as (ru1 & X3 & X4); congruence). subst a1.
  assert (r1 = r) by (destruct R1, R; congruence). subst r1. assert (d1 = d) by (destruct RD1, RD2; congruence). subst d1.
  destruct RP as [(_ & K)|(y & TD & RP)]; [discriminate K|]. destruct (fi_wok fi); [|discriminate RP]. injection RP as <-. 
  eapply tells_told; [exact TD|]. clear TD x H.
  destruct go. { apply tl_irq. apply report_eq; reflexivity. }
  pose proof (mv_inv _ _ _ M) as I.
  assert (T3 : forall (A B C : Type) (a a' : A) (b b' : B) (q q' : C), (a, b, q) = (a', b', q') -> a = a' /\ b = b' /\ q = q') by (intros A B C ? ? ? ? ? ? E; split; [congruence|split; congruence]).
  remember (v1, simd', false) as out eqn:Eo.
  destruct EO as [E|E|E|r2 E Hr|r2 x2 sd go Hx He Hs|labs out Hx He Hs Lv]; apply T3 in Eo; destruct Eo as (<- & Es & Eg).
  - apply tl_irq. apply report_eq; reflexivity.
  - apply tl_fiq; [exact E|]. apply report_eq; reflexivity.
  - apply tl_other; [left; exact E|]. apply report_eq; reflexivity.
  - apply tl_serror; [exact E|]. cbn [v_exit]. rewrite serror_kept. apply report_eq; reflexivity.
  - subst go. eapply sync_tells; [exact Hx|exact He|exact IB|]. exact Hs.
  - pose proof (smc_exit _ _ _ fi tm _ _ EX R Hx He) as SM.
    destruct Hs; try discriminate Eg; unfold rsi_result, keep_last; cbn [fst snd ra_abort ra_update ra_exit ret_host exit_host s2_fault negb v_exit v_set_rec v_set_exit v_set_att v_rec v_att] in *.
    + apply tl_irq. apply report_eq; reflexivity.
    + eapply tl_ripas; [split; [exact SM|eassumption]|]. subst. apply report_eq; reflexivity.
    + match goal with X : ram_page _ _ _ _ |- _ => pose proof (ram_words _ _ _ _ _ _ _ _ _ I RD1 ltac:(eassumption) X ltac:(eassumption)) as PW end.
      eapply tl_host; [split; [exact SM|eassumption]|eassumption|exact PW|]. apply report_eq; reflexivity.
    + apply tl_psci; [|apply report_eq; reflexivity]. unfold psci_request, u32 in *.
      match goal with X : In _ _ |- _ => destruct X as [P|[P|[P|[P|[]]]]] end; [left|left|right|right]; (split; [exact SM|]); cbn [In]; rewrite <- P; auto.
    + apply tl_power; [|apply report_eq; reflexivity]. left. split; [exact SM|]. unfold psci_fid, u32 in *. destruct H as [H|H]; [left|right; left]; symmetry; exact H.
    + apply tl_power; [|apply report_eq; reflexivity]. right. left. split; [exact SM|]. unfold psci_fid, u32 in *. left. symmetry. exact H.
    + apply tl_power; [|apply report_eq; reflexivity]. right. right. destruct H as [H|H]; [left|right]; (split; [exact SM|]); left; symmetry; exact H.
    + match goal with X : rsi_faults _ _ _ _ _ _ |- _ => destruct X as (l & b & e & LF & NE & _ & PR & FX) end.
      assert (LE : level = l). { destruct FX as [(_ & FX)|(_ & FX)]; [discriminate FX|unfold s2_fault in FX; injection FX as FX; exact FX]. } subst l.
      eapply tl_fault with (level := level); [|exact PR|eapply no_ram; eassumption|apply Lv; reflexivity|].
      * unfold rsi_call. destruct H1 as [(X1 & _)|[(X1 & _)|(X1 & _)]]; [left|right; left|right; right]; (split; [exact SM|exact X1]).
      * apply report_eq; try reflexivity.
        -- specialize (Lv eq_refl). cbn [ra_level snd s2_fault] in Lv. cbn [ex_esr ex_set_reason ex_set_hpfar ex_set_far ex_set_esr]. assert (C : level = 0%Z \/ level = 1%Z \/ level = 2%Z \/ level = 3%Z) by (clear -Lv; lia). destruct C as [-> |[-> |[-> | ->]]]; reflexivity.
        -- cbn [ex_hpfar ex_set_reason ex_set_hpfar v_rec v_set_exit]. rewrite N.shiftr_div_pow2. reflexivity.
Qed.
