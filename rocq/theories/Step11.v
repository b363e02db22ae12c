(** The services a realm calls *)
From Coq Require Import NArith ZArith List Bool Lia ZifyBool ZifyN.
From Verif Require Import Bits S2tte S2tteFacts State Granule Wp RecFields Measure RmiRtt RmiRealm Psci RmiRec Gic Esr Rsi RecRun
  Arch ArchFacts Mmu Machine Spec SpecStep SpecExit SpecRec SpecRsi Inv InvTree MmuFacts InvStep InvStep2 InvStep3 Effects Frames CmdLib CmdData CmdRipas
  CmdRec CmdRealm CmdRsi CmdRsi2 CmdRun CmdRun2 CmdAll MInv MStep View StepView Own ExitFacts Step Step2 Step3 Step4 Step5 Step6 Step7 Step8 Step9 Step10.
Import ListNotations.
Local Open Scope N_scope.

(** The granules other than the REC after the effects of a call *)
Definition after_labs (G : N -> granule) (labs : list label) : N -> granule :=
  fold_left (fun G lab => match lab with LRd rd _ d' => upd G rd (mkG RD (g_ref (G rd)) (CRd d')) | LFree g x => upd G g x | _ => G end) labs G.

Lemma clear_hint : forall w, N.clearbit w 16 = N.ldiff w SMC_SVE_HINT.
Proof. intro w. unfold N.clearbit. reflexivity. Qed.

Definition one_label (a : N) (r : recd) (labs : list label) : Prop :=
  labs = [] \/ (exists d d', labs = [LRd (r_g_rd r) d d']) \/ (exists g f, labs = [LFree g (mkG DATA 0 (CW f))]).

Lemma smc_step : forall c h m o m' rp a r d, next c h m o m' rp -> smc m o a r -> realm m (r_g_rd r) d ->
  exists gh p ev fi tm labs v2 s r', o = OExit p ev fi tm /\ MInv c gh m /\ MInv c gh m' /\ rec_is m' a r' /\ rec_ok c d r /\
    rsi_out c (ev_att ev) gh (m_gr m) d (mkV r exit_zero (m_att m a)) labs (v2, s) /\ (ra_abort s = true -> (0 <= ra_level s <= 3)%Z) /\
    (let r2 := if ra_update s then set_results (v_rec v2) (ra_x s) else v_rec v2 in
     r_regs r' = r_regs r2 /\ r_pc r' = if ra_abort s then r_pc r2 else wrap64 (r_pc r2 + 4)) /\
    pend r' = pend (v_rec v2) /\
    (forall z, z <> a -> m_gr m' z = after_labs (m_gr m) labs z) /\ m_att m' = upd (m_att m) a (v_att v2) /\
    ((ra_exit s = false /\ rp = Entered) \/
     (exists x, told x = told (if negb (ra_exit s) then ex_set_reason exit_zero RMI_EXIT_IRQ else v_exit (fst (rsi_result (v2, s)))) /\
        rp = if fi_wok fi then Exited RMI_SUCCESS (Some x) else Exited RMI_ERROR_INPUT None)).
Proof.
  intros c h m o m' rp a r d H SM RD1. destruct SM as (p & ev & fi & tm & -> & EX & R & X1 & X2).
  destruct (rec_inv _ _ _ (proj1 H)) as [F _]. destruct (rec_realm _ _ _ (proj1 H) _ _ R) as (d0 & RD0 & RO).
  assert (d0 = d) by (destruct RD0, RD1; congruence). subst d0.
  destruct (next_good _ _ _ _ _ _ H) as (gh & gh' & labs & M & M' & GE & OE). cbn [op_eff] in OE.
  destruct OE as (-> & ru & r1 & d1 & out & at_ & simd & CP & RR & R1 & RU & _ & AT & RP).
  destruct EX as (ru1 & CP1 & Ea). assert (ru1 = ru) by congruence. subst ru1.
  pose proof (F _ _ CP) as FE. rewrite FE, Ea in RU. rewrite Ea in *.
  assert (r1 = r) by (destruct RR, R; congruence). subst r1. assert (d1 = d) by (destruct R1, RD1; congruence). subst d1.
  apply run_split in RU. destruct RU as (l0 & v1 & sd & go & r' & k & EO & -> & CR & SS & -> & K).
  assert (EC1 : esr_ec (ev_esr ev) = EC_SMC). { apply class_ec; [reflexivity|]. unfold class, field. rewrite <- X2. unfold bits. reflexivity. }
  remember (v1, sd, go) as ot eqn:Eo.
  destruct EO as [E|E|E|r2 E Hr|r2 x2 s2 g2 Hx He Hs|labs out1 Hx He Hs Lv]; try congruence.
  change (v_set_exit (mkV r exit_zero (m_att m a)) (ex_set_reason (v_exit (mkV r exit_zero (m_att m a))) RMI_EXIT_SYNC)) with (mkV r exit_zero (m_att m a)) in Hs.
  destruct out1 as [v2 s].
  assert (T3 : forall (A B C : Type) (a a' : A) (b b' : B) (q q' : C), (a, b, q) = (a', b', q') -> a = a' /\ b = b' /\ q = q') by (intros A B C ? ? ? ? ? ? E; split; [congruence|split; congruence]).
  apply T3 in Eo. destruct Eo as (Ev & Es & Eg).
  assert (HK : core (v_rec v1) = core (v_rec v1) /\ r_regs (v_rec v1) = r_regs (if ra_update s then set_results (v_rec v2) (ra_x s) else v_rec v2) /\
     r_pc (v_rec v1) = (if ra_abort s then r_pc (if ra_update s then set_results (v_rec v2) (ra_x s) else v_rec v2) else wrap64 (r_pc (if ra_update s then set_results (v_rec v2) (ra_x s) else v_rec v2) + 4)) /\
     pend (v_rec v1) = pend (v_rec v2) /\ v_att v1 = v_att v2 /\ go = negb (ra_exit s) /\ (v_exit v1 = v_exit (fst (rsi_result (v2, s))))).
  { subst v1 go. unfold rsi_result, keep_last. cbv zeta. cbn [fst snd]. destruct (ra_abort s), (ra_exit s), (ra_update s); cbn [negb fst snd v_rec v_set_rec v_exit v_att]; repeat split. }
  destruct HK as (_ & H1 & H2 & H3 & H4 & H5 & H6). clear Ev Eg.
  apply core_parts in CR. destruct CR as (C1 & C2 & C3 & C4 & C5 & _).
  exists gh, p, ev, fi, tm, labs, v2, s, r'. split; [reflexivity|]. split; [exact M|]. split; [exact M'|].
  split. { unfold rec_is. rewrite (geffs_last_rec _ _ _ _ _ _ _ _ _ _ _ _ GE (mv_inv _ _ _ M)). split; reflexivity. }
  split; [exact RO|]. split; [exact Hs|]. split; [exact Lv|].
  split; [cbv zeta; split; congruence|]. split; [congruence|]. split.
  { intros z NZ. destruct (geffs_app _ _ _ _ _ _ _ _ _ GE (mv_inv _ _ _ M)) as (gh1 & G1 & V1 & _ & GE1 & GE2).
    assert (E2 : m_gr m' z = G1 z).
    { inversion GE2; subst. match goal with X : geff _ _ _ _ (LRec _ _ _ _) _ _ _ |- _ => inversion X; subst end.
      match goal with X : geffs _ _ _ _ [] _ _ _ |- _ => inversion X; subst end.
      match goal with X : forall _, m_gr m' _ = _ |- _ => rewrite X end. auto. }
    rewrite E2. clear - Hs GE1.
    assert (ONE : one_label a r labs).
    { unfold one_label. inversion Hs; subst; try (left; reflexivity); right; [right|left|left]; do 2 eexists; reflexivity. }
    destruct ONE as [->|[(d1 & d2 & ->)|(g & f & ->)]]; unfold after_labs; cbn [fold_left].
    - inversion GE1; subst; auto.
    - inversion GE1; subst. match goal with X : geff _ _ _ _ _ _ _ _ |- _ => inversion X; subst end.
      match goal with X : geffs _ _ _ _ [] _ _ _ |- _ => inversion X; subst end.
      match goal with X : forall _, G1 _ = _ |- _ => rewrite X end. unfold upd. destruct (N.eqb_spec z (r_g_rd r)) as [->|]; auto.
    - inversion GE1; subst. match goal with X : geff _ _ _ _ _ _ _ _ |- _ => inversion X; subst end.
      match goal with X : geffs _ _ _ _ [] _ _ _ |- _ => inversion X; subst end.
      match goal with X : forall _, G1 _ = _ |- _ => rewrite X end. unfold upd. destruct (N.eqb_spec z g) as [->|]; auto. }
  split; [rewrite AT, H4; reflexivity|].
  destruct K as [(Eg & Eo & _)|(x & T & Eo)]; subst out.
  - left. split; [rewrite Eg in H5; destruct (ra_exit s); [discriminate H5|reflexivity]|]. apply RP.
  - right. exists x. split.
    + rewrite T, H5. destruct (ra_exit s) eqn:XE; cbn [negb]; [rewrite H6; reflexivity|].
      assert (v_exit v1 = exit_zero) as ->; [|reflexivity]. rewrite H6. unfold rsi_result. cbv zeta. cbn [fst snd]. 
      clear - Hs XE. inversion Hs; subst; try discriminate XE; reflexivity.
    + unfold answer in RP. destruct (fi_wok fi); apply RP.
Qed.

Lemma rsi_step : forall c h m o m' rp a r d n, next c h m o m' rp -> rsi_call m o a r n -> realm m (r_g_rd r) d ->
  exists gh p ev fi tm labs v2 s r', o = OExit p ev fi tm /\ MInv c gh m /\ MInv c gh m' /\ rec_is m' a r' /\ rec_ok c d r /\
    rsi_out c (ev_att ev) gh (m_gr m) d (mkV r exit_zero (m_att m a)) labs (v2, s) /\ (ra_abort s = true -> (0 <= ra_level s <= 3)%Z) /\
    rsi_fid (mkV r exit_zero (m_att m a)) = SMC_RSI_FID n /\
    (let r2 := if ra_update s then set_results (v_rec v2) (ra_x s) else v_rec v2 in
     r_regs r' = r_regs r2 /\ r_pc r' = if ra_abort s then r_pc r2 else wrap64 (r_pc r2 + 4)) /\
    pend r' = pend (v_rec v2) /\
    (forall z, z <> a -> m_gr m' z = after_labs (m_gr m) labs z) /\ m_att m' = upd (m_att m) a (v_att v2) /\
    ((ra_exit s = false /\ rp = Entered) \/
     (exists x, told x = told (if negb (ra_exit s) then ex_set_reason exit_zero RMI_EXIT_IRQ else v_exit (fst (rsi_result (v2, s)))) /\
        rp = if fi_wok fi then Exited RMI_SUCCESS (Some x) else Exited RMI_ERROR_INPUT None)).
Proof.
  intros c h m o m' rp a r d n H (SM & FI) RD1. destruct (smc_step _ _ _ _ _ _ _ _ _ H SM RD1) as (gh & p & ev & fi & tm & labs & v2 & s & r' & H1 & H2 & H3 & H4 & H5 & H6 & H7 & H8).
  exists gh, p, ev, fi, tm, labs, v2, s, r'. do 7 (split; [assumption|]). split; [|exact H8].
  unfold rsi_fid. cbn [v_rec]. unfold u32. rewrite <- clear_hint. exact FI.
Qed.

(** The identifiers of PSCI are no others' *)
Lemma fid_psci : forall v n k, rsi_fid v = SMC_RSI_FID n -> psci_fid v = k -> N.ldiff k SMC_SVE_HINT = SMC_RSI_FID n.
Proof. intros v n k F <-. exact F. Qed.

Lemma psci_in : forall v n, rsi_fid v = SMC_RSI_FID n ->
  In (psci_fid v) [SMC32_PSCI_CPU_ON; SMC64_PSCI_CPU_ON; SMC32_PSCI_AFFINITY_INFO; SMC64_PSCI_AFFINITY_INFO] -> ~ n <= 9.
Proof.
  intros v n F [X|[X|[X|[X|[]]]]] L; symmetry in X; apply (fid_psci _ _ _ F) in X; unfold SMC_RSI_FID in X;
    match type of X with ?a = _ => assert (K : a < 3288334736) by reflexivity end; rewrite X in K; lia.
Qed.
Ltac other_fid F :=
  match goal with
  | X : rsi_fid _ = ?y |- _ => first [constr_eq X F; fail 1|exfalso; rewrite F in X; discriminate X]
  | X : psci_fid _ = _ |- _ => exfalso; apply (fid_psci _ _ _ F) in X; discriminate X
  | X : psci_fid _ = _ \/ psci_fid _ = _ |- _ => exfalso; destruct X as [X|X]; apply (fid_psci _ _ _ F) in X; discriminate X
  | X : cpu_on_fid _ |- _ => exfalso; destruct X as [X|X]; apply (fid_psci _ _ _ F) in X; discriminate X
  | X : affinity_fid _ |- _ => exfalso; destruct X as [X|X]; apply (fid_psci _ _ _ F) in X; discriminate X
  | X : In (u32 _) _ |- _ => exfalso; refine (psci_in _ _ F X _); vm_compute; discriminate
  | X : Rsi.in_range _ _ _ || _ = true |- _ => exfalso; rewrite F in X; vm_compute in X; discriminate X
  | X : forall k, k <= 9 -> rsi_fid _ <> SMC_RSI_FID k |- _ => exfalso; refine (X _ _ F); vm_compute; discriminate
  | X : (rsi_fid _ = _ /\ _) \/ _ |- _ => destruct X as [X|X]
  | X : rsi_fid _ = _ /\ _ |- _ => let Y := fresh in destruct X as [Y X]; first [exfalso; rewrite F in Y; discriminate Y|idtac]
  end.
Ltac by_fid F Hs :=
  inversion Hs; subst; clear Hs; try other_fid F;
  try match goal with
  | X : rsi_plain _ _ _ _ _ |- _ => inversion X; subst; clear X; try other_fid F
  | X : att_out _ _ _ _ _ _ |- _ => inversion X; subst; clear X; try other_fid F; try other_fid F
  | X : page_out _ _ _ _ _ _ _ |- _ => inversion X; subst; clear X; try other_fid F
  end; repeat other_fid F.

Lemma extend_eff : forall c env gh G d v labs v2 s, rsi_out c env gh G d v labs (v2, s) -> rsi_fid v = SMC_RSI_FID 3 ->
  let r := v_rec v in v2 = v /\
  (((r_regs r 1 = 0 \/ MEASUREMENT_SLOT_NR <= r_regs r 1 \/ MAX_EXTENDED_SIZE < r_regs r 2) /\ labs = [] /\ s = ret_realm (rx0 r RSI_ERROR_INPUT)) \/
   (1 <= r_regs r 1 < MEASUREMENT_SLOT_NR /\ r_regs r 2 <= MAX_EXTENDED_SIZE /\ s = ret_realm (rx0 r RSI_SUCCESS) /\
    labs = [LRd (r_g_rd r) d (set_meas d (r_regs r 1) (c_hash c (rd_algorithm d) (rd_meas d (r_regs r 1) :: extend_bytes (r_regs r) (r_regs r 2))))])).
Proof. intros c env gh G d v labs v2 s Hs F r. by_fid F Hs; (split; [reflexivity|]); [left|right]; auto 6. Qed.

Lemma read_eff : forall c env gh G d v labs v2 s, rsi_out c env gh G d v labs (v2, s) -> rsi_fid v = SMC_RSI_FID 2 ->
  let r := v_rec v in let w := rd_meas d (r_regs r 1) in labs = [] /\ v_att v2 = v_att v /\
  ((MEASUREMENT_SLOT_NR <= r_regs r 1 /\ v2 = v /\ s = ret_realm (rx0 r RSI_ERROR_INPUT)) \/
   (r_regs r 1 < MEASUREMENT_SLOT_NR /\ v_rec v2 = set_regs r (measurement_regs (r_regs r) (measurement_words (rd_algorithm d)) w) /\
    s = ret_realm (mkRes RSI_SUCCESS (digest_word w 0) (digest_word w 1) (digest_word w 2) (digest_word w 3)))).
Proof. intros c env gh G d v labs v2 s Hs F r w. by_fid F Hs; (split; [reflexivity|]); (split; [reflexivity|]); [left|right]; auto 6. Qed.

Lemma get_eff : forall c env gh G d v labs v2 s, rsi_out c env gh G d v labs (v2, s) -> rsi_fid v = SMC_RSI_FID 8 ->
  let r := v_rec v in labs = [] /\ v2 = v /\
  ((range_bad d v /\ s = ret_realm (rx0 r RSI_ERROR_INPUT)) \/
   (~ range_bad d v /\ exists top w, r_regs r 1 < top /\ top <= r_regs r 2 /\ top mod 4096 = 0 /\ s = ret_realm (rx r RSI_SUCCESS top (ripas_code w) 0) /\
      forall p, r_regs r 1 / 4096 <= p -> p < top / 4096 -> exists l b e, Leaf gh (r_g_rd r) p l b e /\ e_ripas e = w)).
Proof. intros c env gh G d v labs v2 s Hs F r. by_fid F Hs; (split; [reflexivity|]); (split; [reflexivity|]); [left; auto|right]. split; [assumption|]. exists top, w. auto 8. Qed.

Lemma set_eff : forall c env gh G d v labs v2 s, rsi_out c env gh G d v labs (v2, s) -> rsi_fid v = SMC_RSI_FID 7 ->
  let r := v_rec v in labs = [] /\ v_att v2 = v_att v /\
  (((1 < u32 (r_regs r 3) \/ range_bad d v) /\ v2 = v /\ s = ret_realm (rx0 r RSI_ERROR_INPUT)) \/
   (u32 (r_regs r 3) <= 1 /\ ~ range_bad d v /\ s = ret_host (rx r RSI_SUCCESS (r_regs r 2) 0 0) /\
    v_rec v2 = set_req r (mkReq (r_regs r 1) (r_regs r 2) (r_regs r 1) (u32 (r_regs r 3)) (u32 (r_regs r 4)) (sr_response (r_set_ripas r))) /\
    v_exit v2 = ex_set_ripas (ex_set_reason (v_exit v) RMI_EXIT_RIPAS_CHANGE) (r_regs r 1) (r_regs r 2) (u32 (r_regs r 3)))).
Proof.
  intros c env gh G d v labs v2 s Hs F r. by_fid F Hs; (split; [reflexivity|]); (split; [reflexivity|]); [left; auto|right].
  split; [assumption|]. split; [unfold range_bad; lia|]. auto.
Qed.

(** A page without memory of RIPAS RAM *)
Definition no_page (gh : ghost) (r : recd) (s : rsi) : Prop :=
  exists l b e, Leaf gh (r_g_rd r) (r_regs r 1 / 4096) l b e /\
    ((e_ripas e = EMPTY /\ s = ret_realm (rx0 r RSI_ERROR_INPUT)) \/
     (e_ripas e <> EMPTY /\ (forall pa, e <> EAsRam pa) /\ s = s2_fault (rx0 r 0) l)).
Lemma faults_no_page : forall gh d v v0 l, rsi_faults gh d v (v0, s2_fault (rx0 (v_rec v) 0) l) v0 (r_regs (v_rec v) 1) ->
  no_page gh (v_rec v) (s2_fault (rx0 (v_rec v) 0) l) /\ r_regs (v_rec v) 1 < 2 ^ (ipa_bits (rd_ctx d) - 1).
Proof.
  intros gh d v v0 l (l0 & b & e & LF & NE & _ & P & FX). split; [|exact P]. exists l0, b, e. split; [exact LF|].
  destruct FX as [(_ & FX)|(N & FX)]; [discriminate FX|]. right. split; [exact N|]. split; [exact NE|]. congruence.
Qed.
Lemma empty_no_page : forall gh d v, rsi_empty gh d v (r_regs (v_rec v) 1) ->
  no_page gh (v_rec v) (ret_realm (rx0 (v_rec v) RSI_ERROR_INPUT)) /\ r_regs (v_rec v) 1 < 2 ^ (ipa_bits (rd_ctx d) - 1).
Proof. intros gh d v (P & l & b & e & LF & E). split; [|exact P]. exists l, b, e. auto. Qed.

Lemma config_eff : forall c env gh G d v labs v2 s, rsi_out c env gh G d v labs (v2, s) -> rsi_fid v = SMC_RSI_FID 6 ->
  let r := v_rec v in v2 = v /\
  (((r_regs r 1 mod 4096 <> 0 \/ 2 ^ (ipa_bits (rd_ctx d) - 1) <= r_regs r 1) /\ labs = [] /\ s = ret_realm (rx0 r RSI_ERROR_INPUT)) \/
   (r_regs r 1 mod 4096 = 0 /\ r_regs r 1 < 2 ^ (ipa_bits (rd_ctx d) - 1) /\
    ((exists g f, ram_page gh (r_g_rd r) (r_regs r 1 / 4096) g /\ g_mem (G g) = CW f /\ s = ret_realm (rx0 r RSI_SUCCESS) /\
        labs = [LFree g (mkG DATA 0 (CW (config_words f (ipa_bits (r_ctx r)) (r_algorithm r) (rd_rpv d))))]) \/
     (labs = [] /\ no_page gh r s)))).
Proof.
  intros c env gh G d v labs v2 s Hs F r. by_fid F Hs; rewrite ?vset_id.
  - split; [reflexivity|]. left. auto.
  - match goal with X : _ /\ _ = v_att v |- _ => destruct X as (X1 & ->) end. rewrite vset_id. split; [reflexivity|]. right.
    match goal with X : rsi_empty _ _ _ _ |- _ => apply empty_no_page in X; destruct X as (X2 & X3) end. auto 6.
  - split; [reflexivity|]. right. split; [assumption|]. split; [assumption|]. left. exists g, f. auto.
  - match goal with X : _ /\ _ = v_att v |- _ => destruct X as (X1 & ->) end. rewrite vset_id in *. split; [reflexivity|]. right.
    match goal with X : rsi_faults _ _ _ _ _ _ |- _ => apply faults_no_page in X; destruct X as (X2 & X3) end. auto 6.
Qed.

Lemma host_eff : forall c env gh G d v labs v2 s, rsi_out c env gh G d v labs (v2, s) -> rsi_fid v = SMC_RSI_FID 9 ->
  let r := v_rec v in let off := r_regs r 1 mod 4096 in labs = [] /\ v_att v2 = v_att v /\
  ((host_bad d v /\ v2 = v /\ s = ret_realm (rx0 r RSI_ERROR_INPUT)) \/
   (r_regs r 1 mod 256 = 0 /\ r_regs r 1 < 2 ^ (ipa_bits (rd_ctx d) - 1) /\
    ((exists g f, ram_page gh (r_g_rd r) (r_regs r 1 / 4096) g /\ g_mem (G g) = CW f /\ s = exit_host (rx0 r 0) /\ v_rec v2 = set_host_call r true /\
        v_exit v2 = ex_set_reason (ex_set_gprs (ex_set_imm (v_exit v) (host_call_imm f off)) (host_call_gprs f off)) RMI_EXIT_HOST_CALL) \/
     (v2 = v /\ no_page gh r s)))).
Proof.
  intros c env gh G d v labs v2 s Hs F r off.
  assert (HB : ~ host_bad d v -> r_regs r 1 mod 256 = 0). { intro N. destruct (N.eq_dec (r_regs r 1 mod 256) 0); [assumption|]. exfalso. apply N. left. assumption. }
  by_fid F Hs; (split; [reflexivity|]).
  - split; [reflexivity|]. left. auto.
  - match goal with X : _ /\ _ = v_att v |- _ => destruct X as (X1 & ->) end. rewrite vset_id. split; [reflexivity|]. right.
    match goal with X : rsi_empty _ _ _ _ |- _ => apply empty_no_page in X; destruct X as (X2 & X3) end. auto 6.
  - split; [reflexivity|]. right. split; [assumption|]. split; [assumption|]. left. exists g, f. auto 6.
  - match goal with X : _ /\ _ = v_att v |- _ => destruct X as (X1 & ->) end. rewrite vset_id in *. split; [reflexivity|]. right.
    match goal with X : rsi_faults _ _ _ _ _ _ |- _ => apply faults_no_page in X; destruct X as (X2 & X3) end. auto 6.
Qed.

Lemma init_eff : forall c env gh G d v labs v2 s, rsi_out c env gh G d v labs (v2, s) -> rsi_fid v = SMC_RSI_FID 4 ->
  labs = [] /\ v2 = v_set_att v (mkAtt 0 0 0 (a_buf (v_att v))) /\
  s = ret_realm (if ae_init env && ae_create env then rx (v_rec v) RSI_SUCCESS REC_ATTEST_TOKEN_BUF_SIZE 0 0 else rx0 (v_rec v) RSI_ERROR_UNKNOWN).
Proof. intros c env gh G d v labs v2 s Hs F. by_fid F Hs. auto. Qed.

Lemma continue_eff : forall c env gh G d v labs v2 s, rsi_out c env gh G d v labs (v2, s) -> rsi_fid v = SMC_RSI_FID 5 ->
  let r := v_rec v in v_rec v2 = r /\
  ((chunk_bad d v /\ labs = [] /\ v2 = v /\ s = ret_realm (rx0 r RSI_ERROR_INPUT)) \/
   (~ chunk_bad d v /\
    ((labs = [] /\ a_realm_len (v_att v) = 0 /\ v2 = v /\ exists x, (x = RSI_ERROR_STATE /\ ae_sign env = SgState \/ x = RSI_ERROR_UNKNOWN /\ ae_sign env = SgFail) /\ s = ret_realm (rx0 r x)) \/
     (exists len, labs = [] /\ a_realm_len (v_att v) = 0 /\ ae_sign env = SgIrq len /\ v_att v2 = mkAtt len (a_copied (v_att v)) (a_len (v_att v)) (a_buf (v_att v)) /\
        v_exit v2 = ex_set_reason (v_exit v) RMI_EXIT_IRQ /\ s = ret_host (rx0 r RSI_INCOMPLETE)) \/
     (exists a, signed env v a /\ v_exit v2 = v_exit v /\
        ((labs = [] /\ r_regs r 3 = 0 /\ v_att v2 = a /\ s = ret_realm (rx0 r RSI_INCOMPLETE)) \/
         (labs = [] /\ r_regs r 3 <> 0 /\ write_state env a (r_regs r 3) = (v_att v2, None) /\ s = ret_realm (rx0 r RSI_ERROR_INPUT)) \/
         (labs = [] /\ v_att v2 = a /\ no_page gh r s) \/
         (exists g f len fin, r_regs r 3 <> 0 /\ ram_page gh (r_g_rd r) (r_regs r 1 / 4096) g /\ g_mem (G g) = CW f /\
            write_state env a (r_regs r 3) = (v_att v2, Some (len, fin)) /\
            labs = [LFree g (mkG DATA 0 (CW (put_bytes f (r_regs r 2) len (fun k => a_buf (v_att v2) (a_copied a + k)))))] /\
            s = ret_realm (rx r (if fin : bool then RSI_SUCCESS else RSI_INCOMPLETE) len 0 0))))))).
Proof.
  intros c env gh G d v labs v2 s Hs F r. by_fid F Hs; (split; [reflexivity|]); [left; auto|right..].
  - split; [assumption|]. left. split; [reflexivity|]. split; [assumption|]. split; [reflexivity|]. eexists. split; [left; split; [reflexivity|assumption]|reflexivity].
  - split; [assumption|]. left. split; [reflexivity|]. split; [assumption|]. split; [reflexivity|]. eexists. split; [right; split; [reflexivity|assumption]|reflexivity].
  - split; [assumption|]. right. right. exists a. split; [assumption|]. split; [reflexivity|]. left. auto.
  - split; [assumption|]. right. right. eexists. split; [eassumption|]. split; [reflexivity|]. right. left. auto.
  - match goal with X : ~ chunk_bad _ _ /\ _ |- _ => destruct X as (X1 & X2) end. split; [exact X1|]. right. right. exists a. split; [exact X2|]. split; [reflexivity|].
    right. right. left. match goal with X : rsi_empty _ _ _ _ |- _ => apply empty_no_page in X; destruct X as (X3 & X4) end. auto.
  - split; [assumption|]. right. left. exists len. auto 8.
  - split; [assumption|]. right. right. eexists. split; [eassumption|]. split; [reflexivity|]. right. right. right. exists g, f, len, fin. auto 8.
  - match goal with X : ~ chunk_bad _ _ /\ _ |- _ => destruct X as (X1 & X2) end. split; [exact X1|]. right. right. exists a. split; [exact X2|]. split; [reflexivity|].
    right. right. left. match goal with X : rsi_faults _ _ _ _ _ _ |- _ => apply faults_no_page in X; destruct X as (X3 & X4) end. auto.
Qed.
