(** The services a realm calls: results and effects in the terms of SpecRsi.v *)
From Coq Require Import NArith ZArith List Bool Lia ZifyBool ZifyN.
From Verif Require Import Bits S2tte S2tteFacts State Granule Wp RecFields Measure RmiRtt RmiRealm Psci RmiRec Gic Esr Rsi RecRun
  Arch ArchFacts Mmu Machine Spec SpecStep SpecExit SpecRec SpecRsi Inv InvTree MmuFacts InvStep InvStep2 InvStep3 Effects Frames CmdLib CmdData CmdRipas
  CmdRec CmdRealm CmdRsi CmdRsi2 CmdRun CmdRun2 CmdAll MInv MStep View StepView Own ExitFacts Step Step2 Step3 Step4 Step5 Step6 Step7 Step8 Step9 Step10 Step11.
Import ListNotations.
Local Open Scope N_scope.

Lemma returned_rx : forall r r' v0 v1 v2 v3, r_regs r' = r_regs (set_results r (rx r v0 v1 v2 v3)) -> r_pc r' = wrap64 (r_pc (set_results r (rx r v0 v1 v2 v3)) + 4) ->
  returned r r' v0 v1 v2 v3.
Proof.
  intros r r' v0 v1 v2 v3 E P. unfold returned. rewrite E. repeat (split; [reflexivity|]). split; [|rewrite P; reflexivity].
  intros i L. unfold set_results, set_reg, rx. cbn [r_regs set_regs x0 x1 x2 x3 x4]. unfold upd.
  destruct (N.eqb_spec i 4) as [->|]; [reflexivity|]. destruct (N.eqb_spec i 3); [lia|]. destruct (N.eqb_spec i 2); [lia|]. destruct (N.eqb_spec i 1); [lia|].
  destruct (N.eqb_spec i 0); [lia|]. reflexivity.
Qed.

Lemma extend_value : forall r, extend_bytes (r_regs r) (r_regs r 2) = value r.
Proof. intro r. unfold extend_bytes, value, bytes_of. apply map_ext. intro k. rewrite N.add_0_l. reflexivity. Qed.

Lemma only_nil : forall m m' a, (forall z, z <> a -> m_gr m' z = after_labs (m_gr m) [] z) -> only m m' [a].
Proof. intros m m' a H z N. apply H. intros ->. apply N. left. reflexivity. Qed.
Lemma only_two : forall m m' a g x, (forall z, z <> a -> m_gr m' z = upd (m_gr m) g x z) -> only m m' [a; g].
Proof.
  intros m m' a g x H z N. rewrite H by (intros ->; apply N; left; reflexivity). apply upd_other. intros ->. apply N. right. left. reflexivity.
Qed.
Lemma rec_not : forall m a r g s, rec_is m a r -> g_state (m_gr m g) = s -> s <> REC -> g <> a.
Proof. intros m a r g s (E & _) E2 N ->. congruence. Qed.

Lemma told_hpfar : forall x y, told x = told y -> ex_hpfar x = ex_hpfar y.
Proof. intros x y E. exact (f_equal (fun t => snd (snd (fst (fst (fst t))))) E). Qed.

Section Call.
Variables (c : cfg) (h : hw) (m : mstate) (o : op) (m' : mstate) (rp : reply) (a : N) (r r' : recd) (d : rdesc).
Hypothesis H : next c h m o m' rp.
Hypothesis RD1 : realm m (r_g_rd r) d.
Hypothesis R' : rec_is m' a r'.

Lemma call_rec : forall n, rsi_call m o a r n -> rec_is m a r.
Proof. intros n ((p & ev & fi & tm & _ & _ & R & _) & _). exact R. Qed.

Lemma extend_step : rsi_call m o a r RSI_EXTEND ->
  (1 <= r_regs r 1 <= 4 /\ r_regs r 2 <= 64 -> returned r r' 0 0 0 0 /\ only m m' [a; r_g_rd r] /\
     exists d', realm m' (r_g_rd r) d' /\ besides d d' /\
       rd_meas d' (r_regs r 1) = c_hash c (rd_algorithm d) (rd_meas d (r_regs r 1) :: value r) /\
       forall i, i <> r_regs r 1 -> rd_meas d' i = rd_meas d i) /\
  (~ (1 <= r_regs r 1 <= 4 /\ r_regs r 2 <= 64) -> rejected m m' a r r').
Proof.
  intro RC. pose proof (call_rec _ RC) as R. destruct (rsi_step _ _ _ _ _ _ _ _ _ _ H RC RD1) as (gh & p & ev & fi & tm & labs & v2 & s & r2 & Eo & M & M' & R2 & RO & OUT & _ & F & (E1 & E2) & _ & GR & _ & _).
  assert (r2 = r') by (destruct R2, R'; congruence). subst r2.
  destruct (extend_eff _ _ _ _ _ _ _ _ _ OUT F) as (-> & [(B & -> & ->)|(B1 & B2 & -> & ->)]); cbn [v_rec ra_update ra_abort ra_x ret_realm] in *;
    unfold MEASUREMENT_SLOT_NR, MAX_EXTENDED_SIZE in *.
  - split; [intros ((? & ?) & ?); exfalso; lia|]. intros _. split; [apply returned_rx; assumption|apply only_nil; assumption].
  - split; [|intro K; exfalso; apply K; lia]. intros _. split; [apply returned_rx; assumption|].
    cbn [after_labs fold_left] in GR. split; [eapply only_two; exact GR|]. eexists. split.
    { unfold realm. rewrite GR by (eapply rec_not; [exact R|apply RD1|discriminate]). rewrite upd_same. cbn [g_state g_mem]. split; reflexivity. }
    split; [repeat split|]. cbn [set_meas rd_meas]. rewrite extend_value. split; [apply upd_same|]. intros i N. apply upd_other, N.
Qed.

Lemma read_step : rsi_call m o a r RSI_READ ->
  (r_regs r 1 <= 4 -> r_regs r' 0 = 0 /\ (forall i, i < 8 -> r_regs r' (1 + i) = digest d (r_regs r 1) i) /\ (forall i, 9 <= i -> r_regs r' i = r_regs r i) /\
     r_pc r' = (r_pc r + 4) mod 2 ^ 64 /\ only m m' [a]) /\
  (4 < r_regs r 1 -> rejected m m' a r r').
Proof.
  intro RC. destruct (rsi_step _ _ _ _ _ _ _ _ _ _ H RC RD1) as (gh & p & ev & fi & tm & labs & v2 & s & r2 & Eo & M & M' & R2 & RO & OUT & _ & F & (E1 & E2) & _ & GR & _ & _).
  assert (r2 = r') by (destruct R2, R'; congruence). subst r2.
  destruct (read_eff _ _ _ _ _ _ _ _ _ OUT F) as (-> & _ & [(B & -> & ->)|(B & EV & ->)]); cbn [v_rec ra_update ra_abort ra_x ret_realm] in *; unfold MEASUREMENT_SLOT_NR in *.
  - split; [intros; exfalso; lia|]. intros _. split; [apply returned_rx; assumption|apply only_nil; assumption].
  - split; [|intro K; exfalso; lia]. intros _. rewrite EV in *. unfold set_results, set_reg in E1. cbn [r_regs set_regs x0 x1 x2 x3 x4] in E1.
    split; [rewrite E1; reflexivity|]. split; [|split; [|split; [rewrite E2; reflexivity|apply only_nil; assumption]]].
    + intros i L. rewrite E1. unfold digest. change (if rd_algorithm d =? 0 then 4 else 8) with (measurement_words (rd_algorithm d)).
      assert (C : i = 0 \/ i = 1 \/ i = 2 \/ i = 3 \/ i = 4 \/ i = 5 \/ i = 6 \/ i = 7) by lia.
      assert (W4 : 4 <= measurement_words (rd_algorithm d)) by (unfold measurement_words; destruct (_ =? 0); lia).
      destruct C as [->|[->|[->|[->|C]]]]; try (match goal with |- context [?a <? ?b] => destruct (N.ltb_spec a b); [reflexivity|lia] end).
      rewrite !upd_other by lia. unfold measurement_regs. destruct (N.leb_spec 5 (1 + i)); [|lia]. destruct (N.ltb_spec (1 + i) 9); [|lia].
      cbn [andb]. replace (1 + i - 1) with i by lia. reflexivity.
    + intros i L. rewrite E1. rewrite !upd_other by lia. unfold measurement_regs. destruct (N.ltb_spec i 9); [lia|]. rewrite andb_false_r. reflexivity.
Qed.

Lemma range_iff : range_bad d (mkV r exit_zero (m_att m a)) <-> ~ page_range (rd_ctx d) (r_regs r 1) (r_regs r 2).
Proof. unfold range_bad, page_range. cbn [v_rec]. lia. Qed.

Lemma get_step : rsi_call m o a r RSI_GET ->
  (page_range (rd_ctx d) (r_regs r 1) (r_regs r 2) -> only m m' [a] /\
     exists top w, r_regs r 1 < top /\ top <= r_regs r 2 /\ top mod 4096 = 0 /\
       returned r r' 0 top (match w with EMPTY => 0 | RAM => 1 | DESTROYED => 2 end) 0 /\
       forall ipa, r_regs r 1 <= ipa < top -> page_ripas (page_at (m_gr m) (rd_ctx d) ipa) = Some w) /\
  (~ page_range (rd_ctx d) (r_regs r 1) (r_regs r 2) -> rejected m m' a r r').
Proof.
  intro RC. destruct (rsi_step _ _ _ _ _ _ _ _ _ _ H RC RD1) as (gh & p & ev & fi & tm & labs & v2 & s & r2 & Eo & M & M' & R2 & RO & OUT & _ & F & (E1 & E2) & _ & GR & _ & _).
  assert (r2 = r') by (destruct R2, R'; congruence). subst r2. pose proof range_iff as RI.
  destruct (get_eff _ _ _ _ _ _ _ _ _ OUT F) as (-> & -> & [(B & ->)|(B & top & w & T1 & T2 & T3 & -> & T4)]); cbn [v_rec ra_update ra_abort ra_x ret_realm] in *.
  - split; [tauto|]. intros _. split; [apply returned_rx; assumption|apply only_nil; assumption].
  - split; [|tauto]. intros PR. split; [apply only_nil; assumption|]. exists top, w. split; [exact T1|]. split; [exact T2|]. split; [exact T3|].
    split. { change (match w with EMPTY => 0 | RAM => 1 | DESTROYED => 2 end) with (ripas_code w). apply returned_rx; assumption. }
    intros ipa (L1 & L2). destruct (T4 (ipa / 4096)) as (l & b & e & LF & Er); [lia|lia|].
    assert (P : protected (rd_ctx d) ipa) by (destruct PR as (_ & _ & _ & PR); unfold protected; lia).
    pose proof (page_half _ _ _ _ _ _ (proj1 H) RD1 P) as PH. pose proof (protected_in _ _ _ _ _ _ (proj1 H) RD1 P) as Hi.
    destruct (view_leaf _ _ _ _ (mv_inv _ _ _ M) _ _ _ _ _ _ RD1 Hi LF) as [VL _]. rewrite VL in *.
    destruct e; cbn [view_e page_ripas e_ripas] in *; try congruence; exfalso; destruct PH as (q & PH); discriminate PH.
Qed.


Lemma set_step : rsi_call m o a r RSI_SET ->
  (page_range (rd_ctx d) (r_regs r 1) (r_regs r 2) /\ r_regs r 3 mod 2 ^ 32 <= 1 ->
     returned r r' 0 (r_regs r 2) 0 0 /\ only m m' [a] /\
     (let q := r_set_ripas r' in sr_base q = r_regs r 1 /\ sr_top q = r_regs r 2 /\ sr_addr q = r_regs r 1 /\ sr_ripas q = r_regs r 3 mod 2 ^ 32) /\
     told_host rp (fun x => report x 4 0 0 0 no_gprs (r_regs r 1) (r_regs r 2) (r_regs r 3 mod 2 ^ 32) 0)) /\
  (~ (page_range (rd_ctx d) (r_regs r 1) (r_regs r 2) /\ r_regs r 3 mod 2 ^ 32 <= 1) -> rejected m m' a r r').
Proof.
  intro RC. destruct (rsi_step _ _ _ _ _ _ _ _ _ _ H RC RD1) as (gh & p & ev & fi & tm & labs & v2 & s & r2 & Eo & M & M' & R2 & RO & OUT & _ & F & (E1 & E2) & PE & GR & _ & RP).
  assert (r2 = r') by (destruct R2, R'; congruence). subst r2. pose proof range_iff as RI.
  destruct (set_eff _ _ _ _ _ _ _ _ _ OUT F) as (-> & _ & [(B & -> & ->)|(B1 & B2 & -> & EV & EX)]); cbn [v_rec ra_update ra_abort ra_exit ra_x ret_realm ret_host] in *; unfold u32 in *.
  - split; [intros (? & ?); exfalso; destruct B as [B|B]; [lia|tauto]|]. intros _. split; [apply returned_rx; assumption|apply only_nil; assumption].
  - split; [|tauto]. intros _. rewrite EV in *. split; [apply returned_rx; assumption|]. split; [apply only_nil; assumption|].
    split. { assert (EQ : r_set_ripas r' = mkReq (r_regs r 1) (r_regs r 2) (r_regs r 1) (r_regs r 3 mod 2 ^ 32) (r_regs r 4 mod 2 ^ 32) (sr_response (r_set_ripas r))) by (apply pend_parts in PE; apply PE). cbv zeta. rewrite EQ. repeat split. }
    destruct RP as [(RP & _)|(x & TD & ->)]; [discriminate RP|]. destruct (fi_wok fi); [right|left; reflexivity]. exists x. split; [reflexivity|].
    eapply report_told; [exact TD|]. unfold rsi_result. cbn [fst snd ra_abort ra_update ra_exit ret_host negb v_exit]. rewrite EX. apply report_eq; reflexivity.
Qed.

Lemma ram_at : forall gh g, Inv c gh (m_gr m) (m_vmids m) -> protected (rd_ctx d) (r_regs r 1) -> ram_page gh (r_g_rd r) (r_regs r 1 / 4096) g ->
  page_at (m_gr m) (rd_ctx d) (r_regs r 1) = PAssigned RAM g.
Proof.
  intros gh g I P (l & b & pa & LF & -> & _). pose proof (protected_in _ _ _ _ _ _ (proj1 H) RD1 P) as Hi.
  destruct (view_leaf _ _ _ _ I _ _ _ _ _ _ RD1 Hi LF) as [-> _]. reflexivity.
Qed.

Lemma no_page_memory : forall gh s v2 fi (ok : N -> Prop), Inv c gh (m_gr m) (m_vmids m) -> protected (rd_ctx d) (r_regs r 1) -> no_page gh r s -> 
  v_rec v2 = r -> v_exit v2 = exit_zero -> (ra_abort s = true -> (0 <= ra_level s <= 3)%Z) ->
  (let r2 := if ra_update s then set_results r (ra_x s) else r in r_regs r' = r_regs r2 /\ r_pc r' = if ra_abort s then r_pc r2 else wrap64 (r_pc r2 + 4)) ->
  (forall z, z <> a -> m_gr m' z = after_labs (m_gr m) [] z) ->
  ((ra_exit s = false /\ rp = Entered) \/
     (exists x, told x = told (if negb (ra_exit s) then ex_set_reason exit_zero RMI_EXIT_IRQ else v_exit (fst (rsi_result (v2, s)))) /\
        rp = if fi_wok fi then Exited RMI_SUCCESS (Some x) else Exited RMI_ERROR_INPUT None)) ->
  with_memory m m' rp a d r r' ok.
Proof.
  intros gh s v2 fi ok I P (l & b & e & LF & NP) EV EX LV (E1 & E2) GR RP. pose proof (protected_in _ _ _ _ _ _ (proj1 H) RD1 P) as Hi.
  pose proof (page_half _ _ _ _ _ _ (proj1 H) RD1 P) as (q & PH).
  destruct (view_leaf _ _ _ _ I _ _ _ _ _ _ RD1 Hi LF) as [VL _]. unfold with_memory. rewrite VL in *.
  destruct (leaf_level _ _ _ _ I _ _ _ _ _ _ RD1 LF) as (L1 & L2 & _).
  destruct NP as [(Ee & ->)|(NE & NR & ->)].
  - cbn [ra_update ra_abort ra_x ret_realm] in *.
    assert (RJ : rejected m m' a r r') by (split; [apply returned_rx; assumption|apply only_nil; assumption]).
    destruct e; cbn [e_ripas view_e page_ripas] in *; try discriminate; exact RJ.
  - cbn [ra_update ra_abort ra_exit ra_x ra_level s2_fault] in *.
    assert (FA : faulted m m' rp a d r r').
    { split; [intro i; rewrite E1; reflexivity|]. split; [exact E2|]. split; [apply only_nil; assumption|].
      exists l, (enc (enable_lpa2 (rd_ctx d)) l e). split.
      { destruct (root_own _ _ _ _ I _ _ _ RD1 Hi) as (K & O).
        assert (EA : first_desc (rd_ctx d) (r_regs r 1) = g_rtt (rd_ctx d) + r_regs r 1 / ms (s2_sl (rd_ctx d)) / 512 * 4096 + 8 * ((r_regs r 1 / ms (s2_sl (rd_ctx d))) mod 512)).
        { unfold first_desc. rewrite arch_lsb_eq by lia. fold (ms (s2_sl (rd_ctx d))). rewrite (div512 (r_regs r 1 / ms (s2_sl (rd_ctx d)))) at 1. lia. }
        rewrite EA. apply (last_desc_leaf _ _ _ _ I (Z.to_nat (3 - s2_sl (rd_ctx d))) 4 _ d _ _ _ l b e RD1 eq_refl ltac:(lia) O LF). }
      specialize (LV eq_refl). split; [exact LV|].
      destruct RP as [(RP & _)|(x & TD & ->)]; [discriminate RP|]. destruct (fi_wok fi); [right|left; reflexivity]. exists x. split; [reflexivity|].
      unfold rsi_result in TD. cbn [fst snd ra_abort ra_update ra_exit ra_level s2_fault negb v_exit] in TD. rewrite EX, EV in TD.
      assert (HP : ex_hpfar x = r_regs r 1 / 256).
      { assert (K : ex_hpfar x = N.shiftr (r_regs r 1) 8) by (exact (told_hpfar _ _ TD)). rewrite K. apply N.shiftr_div_pow2. }
      rewrite HP. split.
      - eapply report_told; [exact TD|]. apply report_eq; try reflexivity.
        + cbn [ex_esr ex_set_reason ex_set_hpfar ex_set_far ex_set_esr]. assert (C : l = 0%Z \/ l = 1%Z \/ l = 2%Z \/ l = 3%Z) by (clear -LV; lia). destruct C as [-> |[-> |[-> | ->]]]; reflexivity.
        + cbn [ex_hpfar ex_set_reason ex_set_hpfar]. apply N.shiftr_div_pow2.
      - unfold fault_ipa, field. pose proof (ctx_bits52 _ (inv_ctx _ _ _ _ I _ _ RD1)) as CB.
        assert (B52 : r_regs r 1 < 2 ^ 52). { eapply N.lt_le_trans; [exact Hi|]. apply pow2_le. exact CB. }
        change (2 ^ 4) with 16. rewrite N.div_div by discriminate. change (256 * 16) with 4096. rewrite N.mod_small; [reflexivity|]. 
        change (2 ^ 52) with (4096 * 2 ^ 40) in B52. apply N.div_lt_upper_bound; [discriminate|exact B52]. }
    destruct e; cbn [e_ripas view_e page_ripas] in *; try discriminate; first [exact FA|exfalso; apply NE; reflexivity|exfalso; eapply NR; reflexivity].
Qed.

Lemma config_eq : forall f w, rec_ok c d r -> config_words f (ipa_bits (r_ctx r)) (r_algorithm r) (rd_rpv d) w = config d f w.
Proof.
  intros f w (K1 & _ & _ & _ & _ & _ & _ & K2 & _). unfold config_words, config. rewrite K1, K2.
  destruct (w =? 0); [reflexivity|]. destruct (w =? 1); [|reflexivity].
  assert (E : N.ldiff (f 1) 255 = f 1 / 256 * 256). { change 255 with (N.ones 8). rewrite N.ldiff_ones_r. rewrite N.shiftr_div_pow2, N.shiftl_mul_pow2. reflexivity. }
  rewrite E. destruct (rd_algorithm d =? 0); [rewrite N.lor_0_r, N.add_0_r; reflexivity|].
  apply lor_disjoint_add. change 256 with (2 ^ 8). rewrite <- N.shiftl_mul_pow2. apply N.bits_inj. intro i. rewrite N.land_spec, N.bits_0.
  destruct (N.lt_ge_cases i 8) as [L|L]; [rewrite N.shiftl_spec_low by exact L; reflexivity|].
  replace (N.testbit 1 i) with false; [apply andb_false_r|]. symmetry. apply N.bits_above_log2. cbn. lia.
Qed.

Lemma config_step : rsi_call m o a r RSI_CONFIG ->
  (page_address (rd_ctx d) (r_regs r 1) -> with_memory m m' rp a d r r' (fun g => returned r r' 0 0 0 0 /\ only m m' [a; g] /\
     exists f f', g_mem (m_gr m g) = CW f /\ g_mem (m_gr m' g) = CW f' /\ g_state (m_gr m' g) = DATA /\ forall w, f' w = config d f w)) /\
  (~ page_address (rd_ctx d) (r_regs r 1) -> rejected m m' a r r').
Proof.
  intro RC. pose proof (call_rec _ RC) as R. destruct (rsi_step _ _ _ _ _ _ _ _ _ _ H RC RD1) as (gh & p & ev & fi & tm & labs & v2 & s & r2 & Eo & M & M' & R2 & RO & OUT & LV & F & E12 & _ & GR & _ & RP).
  assert (r2 = r') by (destruct R2, R'; congruence). subst r2. unfold page_address, protected.
  destruct (config_eff _ _ _ _ _ _ _ _ _ OUT F) as (-> & [(B & -> & ->)|(B1 & B2 & [(g & f & RP1 & Ef & -> & ->)|(-> & NP)])]);
    cbn [v_rec] in *.
  - cbn [ra_update ra_abort ra_x ret_realm] in *. destruct E12 as (E1 & E2). split; [intros (? & ?); exfalso; lia|]. intros _. split; [apply returned_rx; assumption|apply only_nil; assumption].
  - split; [|intro K; exfalso; apply K; auto]. intros _. unfold with_memory. rewrite (ram_at gh g (mv_inv _ _ _ M) B2 RP1).
    cbn [ra_update ra_abort ra_x ret_realm] in *. destruct E12 as (E1 & E2). split; [apply returned_rx; assumption|].
    cbn [after_labs fold_left] in GR. split; [eapply only_two; exact GR|]. exists f. eexists. split; [exact Ef|].
    assert (NA : g <> a). { destruct RP1 as (l & b & pa & _ & _ & DM). eapply rec_not; [exact R| |]; [apply (i_dmap _ _ _ _ (mv_inv _ _ _ M) _ _ _ DM)|discriminate]. }
    rewrite GR by exact NA. rewrite upd_same. cbn [g_mem g_state]. split; [reflexivity|]. split; [reflexivity|]. intro w. apply config_eq, RO.
  - split; [|intro K; exfalso; apply K; auto]. intros _. eapply no_page_memory; try eassumption; try reflexivity. apply (mv_inv _ _ _ M).
Qed.

Lemma host_step : rsi_call m o a r RSI_HOST ->
  (host_address (rd_ctx d) (r_regs r 1) -> with_memory m m' rp a d r r' (fun g => (forall i, r_regs r' i = r_regs r i) /\ r_pc r' = (r_pc r + 4) mod 2 ^ 64 /\
     only m m' [a] /\ r_host_call r' = true /\ exists f, g_mem (m_gr m g) = CW f /\
     told_host rp (fun x => report x 5 0 0 0 (first_gprs 31 (fun i => f (r_regs r 1 mod 4096 / 8 + 1 + i))) 0 0 0 (f (r_regs r 1 mod 4096 / 8) mod 2 ^ 32)))) /\
  (~ host_address (rd_ctx d) (r_regs r 1) -> rejected m m' a r r').
Proof.
  intro RC. pose proof (call_rec _ RC) as R. destruct (rsi_step _ _ _ _ _ _ _ _ _ _ H RC RD1) as (gh & p & ev & fi & tm & labs & v2 & s & r2 & Eo & M & M' & R2 & RO & OUT & LV & F & E12 & PE & GR & _ & RP).
  assert (r2 = r') by (destruct R2, R'; congruence). subst r2. unfold host_address, protected.
  destruct (host_eff _ _ _ _ _ _ _ _ _ OUT F) as (-> & _ & [(B & -> & ->)|(B1 & B2 & [(g & f & RP1 & Ef & -> & EV & EX)|(-> & NP)])]); cbn [v_rec v_exit] in *.
  - cbn [ra_update ra_abort ra_x ret_realm] in *. destruct E12 as (E1 & E2). split; [|intros _; split; [apply returned_rx; assumption|apply only_nil; assumption]].
    intros (K1 & K2). exfalso. unfold host_bad in B. cbn [v_rec] in B. 
    pose proof (ctx_bits52 _ (inv_ctx _ _ _ _ (mv_inv _ _ _ M) _ _ RD1)) as CB.
    assert (B52 : r_regs r 1 < 2 ^ 52). { eapply N.lt_le_trans; [exact K2|]. apply pow2_le. lia. }
    destruct B as [B|[B|B]]; [contradiction| |lia]. unfold wrap64 in B. rewrite N.mod_small in B; [clear - K1 B; lia|]. clear - B52. 
    eapply N.lt_trans; [apply N.add_lt_mono_r; exact B52|]. reflexivity.
  - split; [|intro K; exfalso; apply K; auto]. intros _. unfold with_memory. rewrite (ram_at gh g (mv_inv _ _ _ M) B2 RP1).
    cbn [ra_update ra_abort ra_exit ra_x exit_host] in *. destruct E12 as (E1 & E2). rewrite EV in *. split; [intro i; rewrite E1; reflexivity|]. split; [exact E2|].
    split; [apply only_nil; assumption|]. split; [apply pend_parts in PE; apply PE|]. exists f. split; [exact Ef|].
    destruct RP as [(RP & _)|(x & TD & ->)]; [discriminate RP|]. destruct (fi_wok fi); [right|left; reflexivity]. exists x. split; [reflexivity|].
    eapply report_told; [exact TD|]. unfold rsi_result. cbn [fst snd ra_abort ra_update ra_exit exit_host negb v_exit]. rewrite EX. apply report_eq; reflexivity.
  - split; [|intro K; exfalso; apply K; auto]. intros _. eapply no_page_memory; try eassumption; try reflexivity. apply (mv_inv _ _ _ M).
Qed.
End Call.
