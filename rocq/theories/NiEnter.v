(** RMI_REC_ENTER and exits in machines that agree. *)
From Coq Require Import NArith ZArith List Bool Lia ZifyBool ZifyN.
From Verif Require Import Bits S2tte S2tteFacts State Granule Wp RecFields Measure RmiRtt RmiRealm Psci RmiRec Gic Esr Rsi RecRun
  Arch ArchFacts Mmu Machine Spec SpecStep SpecAgree SpecAgree2 Inv InvTree Effects CmdLib CmdRec CmdRsi CmdRsi2 CmdRun CmdRun2
  MInv MStep View Own Step Step5 Step7 NiFacts.
Import ListNotations.
Local Open Scope N_scope.

(** ** The ghost state of one machine fits the other *)
Lemma gagree_sym : forall g g', granule_agree g g' -> granule_agree g' g.
Proof.
  intros g g' (H1 & H2 & H3). split; [congruence|]. split; [congruence|]. rewrite <- H1.
  destruct H3 as [H3|[H3|H3]]; auto. right. right. apply content_sym, H3.
Qed.
Lemma rd_to : forall G G' a d, (forall g, granule_agree (G g) (G' g)) -> is_rd G a d -> exists d', is_rd G' a d' /\ rd_public d = rd_public d'.
Proof.
  intros G G' a d A [S M]. destruct (A a) as (H1 & H2 & H3). rewrite S, M in H3. destruct H3 as [H3|[H3|H3]]; try discriminate H3.
  unfold content_agree in H3. destruct (g_mem (G' a)) eqn:E; try contradiction. exists r. split; [split; [congruence|exact E]|exact H3].
Qed.
Lemma rec_to : forall G G' a r, (forall g, granule_agree (G g) (G' g)) -> is_rec G a r -> exists r', is_rec G' a r' /\ rec_agree r r'.
Proof.
  intros G G' a d A [S M]. destruct (A a) as (H1 & H2 & H3). rewrite S, M in H3. destruct H3 as [H3|[H3|H3]]; try discriminate H3.
  unfold content_agree in H3. destruct (g_mem (G' a)) eqn:E; try contradiction. exists r. split; [split; [congruence|exact E]|exact H3].
Qed.
Lemma public_ctx : forall d d', rd_public d = rd_public d' -> rd_ctx d = rd_ctx d' /\ rd_state d = rd_state d'.
Proof. intros d d' E. unfold rd_public in E. injection E as -> _ -> _ _ _ _ _ _. auto. Qed.
Lemma public_rec : forall r r', rec_public r = rec_public r' -> r_idx r = r_idx r' /\ r_runnable r = r_runnable r' /\ r_set_ripas r = r_set_ripas r' /\
  r_g_rd r = r_g_rd r' /\ r_ctx r = r_ctx r' /\ r_psci_pending r = r_psci_pending r' /\ r_aux r = r_aux r' /\ r_host_call r = r_host_call r' /\
  r_pmu_enabled r = r_pmu_enabled r'.
Proof. intros r r' E. unfold rec_public in E. injection E as -> -> _ _ _ _ -> -> -> _ _ _ -> -> -> ->. auto 10. Qed.

Lemma inv_agree : forall c gh gh' G G' V V', Inv c gh G V -> Inv c gh' G' V' -> (forall g, granule_agree (G g) (G' g)) -> (forall v, V v = V' v) ->
  Inv c gh G' V'.
Proof.
  intros c gh gh' G G' V V' I I' A HV. pose proof (fun g => gagree_sym _ _ (A g)) as A'.
  assert (ST : forall a, g_state (G a) = g_state (G' a)) by (intro; apply A).
  assert (RF : forall a, g_ref (G a) = g_ref (G' a)) by (intro; apply A).
  constructor.
  - apply (i_gran _ _ _ _ I').
  - apply (i_ns _ _ _ _ I').
  - apply (i_del _ _ _ _ I').
  - apply (i_kinds _ _ _ _ I').
  - intros a S. destruct (i_data _ _ _ _ I' a S) as (H1 & H2 & _). rewrite <- ST in S. destruct (i_data _ _ _ _ I a S) as (_ & _ & H3). auto.
  - intros a rd p D. destruct (i_dmap _ _ _ _ I a rd p D) as (H1 & H2). rewrite ST in H1. auto.
  - intros a S. destruct (i_rd _ _ _ _ I' a S) as (d & H1 & H2 & _). rewrite <- ST in S. destruct (i_rd _ _ _ _ I a S) as (_ & _ & _ & H3). exists d. rewrite <- RF. auto.
  - intros a d k R. destruct (rd_to _ _ _ _ A' R) as (d0 & R0 & P). apply public_ctx in P. destruct P as (-> & _). apply (i_root _ _ _ _ I a d0 k R0).
  - intros a S. rewrite <- ST in S. apply (i_rtt _ _ _ _ I a S).
  - intros a rd l t O. destruct (i_own _ _ _ _ I a rd l t O) as (d & R & T). destruct (rd_to _ _ _ _ A R) as (d' & R' & P). apply public_ctx in P. destruct P as (P & _).
    exists d'. split; [exact R'|]. rewrite <- P. destruct T as [T1 T2 T3 T4 T5 T6]. destruct (A a) as (H1 & H2 & H3).
    constructor; try assumption; [congruence| |congruence]. destruct T3 as (f & F & W). rewrite F, T1 in H3. destruct H3 as [H3|[H3|H3]]; try discriminate H3.
    unfold content_agree in H3. destruct (g_mem (G' a)) as [f'| |] eqn:E; try contradiction. exists f'. split; [reflexivity|].
    intros i Hi. rewrite <- H3. apply W, Hi.
  - intros v E. rewrite <- HV in E. destruct (i_vmid _ _ _ _ I v E) as (rd & d & R & E1). destruct (rd_to _ _ _ _ A R) as (d' & R' & P). apply public_ctx in P. destruct P as (P & _).
    exists rd, d'. rewrite <- P. auto.
  - intros rd d R. apply (i_vmid_set _ _ _ _ I' rd d R).
  - intros rd d rd' d'. apply (i_vmid_inj _ _ _ _ I').
  - intros a S. destruct (i_rec _ _ _ _ I' a S) as (H1 & rc & d & H2 & H3 & H4 & _). split; [exact H1|]. exists rc, d. split; [exact H2|]. split; [exact H3|]. split; [exact H4|].
    destruct (rec_to _ _ a rc A' (conj S H2)) as (r0 & [S0 M0] & P & _). apply public_rec in P. destruct P as (_ & _ & _ & P1 & _ & _ & P2 & _).
    destruct (i_rec _ _ _ _ I a S0) as (_ & rc0 & d0 & K1 & _ & _ & K2 & K3). assert (rc0 = r0) by congruence. subst rc0. rewrite P1, P2. auto.
  - intros rd a IN. destruct (i_recs _ _ _ _ I rd a IN) as (rc & R & E). destruct (rec_to _ _ _ _ A R) as (r' & R' & P & _). apply public_rec in P.
    exists r'. split; [exact R'|]. destruct P as (_ & _ & _ & P & _). congruence.
  - apply (i_recs_nodup _ _ _ _ I).
  - apply (i_idx _ _ _ _ I').
  - intros a S. destruct (i_aux _ _ _ _ I' a S) as (H1 & H2 & _). rewrite <- ST in S. destruct (i_aux _ _ _ _ I a S) as (_ & _ & H3). auto.
  - intros a r E. destruct (i_auxo _ _ _ _ I a r E) as (H1 & rc & R & IN). rewrite ST in H1. split; [exact H1|].
    destruct (rec_to _ _ _ _ A R) as (r' & R' & P & _). apply public_rec in P. destruct P as (_ & _ & _ & _ & _ & _ & P & _). exists r'. rewrite <- P. auto.
Qed.

Lemma minv_agree : forall c gh gh' m m', MInv c gh m -> MInv c gh' m' -> agree m m' -> MInv c gh m'.
Proof.
  intros c gh gh' m m' M M' (A1 & A2 & A3 & A4 & A5). destruct M' as [B1 B2 B3 B4 B5 B6 B7 B8 B9]. constructor; try assumption.
  eapply inv_agree; [apply (mv_inv _ _ _ M)|exact B1|exact A5|exact A3].
Qed.

(** ** Why RMI_REC_ENTER fails before it changes the REC *)
Definition enter_code (c : cfg) (h : hw) (G : N -> granule) (a ra : N) (en : option rec_enter) : option N :=
  if negb (find_granule c ra && gstate_eqb (g_state (G ra)) NS) then Some RMI_ERROR_INPUT
  else if negb (find_granule c a && gstate_eqb (g_state (G a)) REC) then Some RMI_ERROR_INPUT
  else if negb (g_ref (G a) =? 0) then Some RMI_ERROR_REC
  else match en, g_mem (G a) with
  | None, _ => Some RMI_ERROR_INPUT
  | Some e, CRec r =>
    match g_mem (G (r_g_rd r)) with
    | CRd d =>
      if rd_state d =? REALM_NEW then Some (pack_return_code RMI_ERROR_REALM 0)
      else if rd_state d =? REALM_SYSTEM_OFF then Some (pack_return_code RMI_ERROR_REALM 1)
      else if negb (r_runnable r) || r_psci_pending r || negb (gic_validate_state (h_gic h) e) then Some RMI_ERROR_REC
      else None
    | _ => None
    end
  | _, _ => None
  end.

Lemma gstate_eqb_eq : forall a b, gstate_eqb a b = true -> a = b.
Proof. intros a b H. destruct a, b; try discriminate H; reflexivity. Qed.
Lemma gstate_eqb_refl : forall a, gstate_eqb a a = true.
Proof. intros []; reflexivity. Qed.

Section Code.
Variables (c : cfg) (gh : ghost) (G : N -> granule) (V : N -> bool).
Hypothesis I : Inv c gh G V.
Variables (L S : N -> bool) (T : list tlbe).
Hypothesis HL : free L.
Hypothesis HS : free S.
Variables (h : hw) (fi : fin) (tm : timers) (a ra : N) (en : option rec_enter) (at_ : att) (code : N).

Let Q (out : enter_out) (s' : state) : Prop := out = EReturn code None /\ forall z, s_gr s' z = G z.

Lemma wp_enter_code : enter_code c h G a ra en = Some code -> wp False (smc_rec_enter c h fi tm a ra en at_) (mkS L S G V T) Q.
Proof.
  intros EC. pose proof (inv_uok _ _ _ _ I) as U. unfold enter_code in EC. unfold smc_rec_enter. cbv zeta.
  assert (FAIL : forall L' S' G', (forall z, G' z = G z) -> Q (EReturn code None) (mkS L' S' G' V T)) by (intros; split; [reflexivity|assumption]).
  assert (NS0 : forall p : prog enter_out, ((find_granule c ra && gstate_eqb (g_state (G ra)) NS) = true -> wp False p (mkS L S G V T) Q) ->
     wp False (ns <- (if find_granule c ra then st <- rd_state_ ra ;; Ret (gstate_eqb st NS) else Ret false) ;;
        if negb ns then Ret (EReturn RMI_ERROR_INPUT None) else p) (mkS L S G V T) Q).
  { intros p Hp. apply wp_bind. destruct (find_granule c ra) eqn:F.
    - apply wp_bind, wp_rd_state, wp_ret. destruct (gstate_eqb (g_state (G ra)) NS) eqn:E; cbn [negb]; [apply Hp; reflexivity|].
      cbn [andb negb] in EC. injection EC as EC. rewrite EC. apply wp_ret, FAIL. reflexivity.
    - apply wp_ret. cbn [negb]. cbn [andb negb] in EC. injection EC as EC. rewrite EC. apply wp_ret, FAIL. reflexivity. }
  apply NS0. clear NS0. intro B. rewrite B in EC. cbn [negb] in EC.
  apply wp_bind, wp_find_lock_unused; [apply HL|apply U| | |].
  2:{ intros L' HL' Hb. assert (E : find_granule c a && gstate_eqb (g_state (G a)) REC = false).
      { destruct Hb as [->|Hb]; [reflexivity|]. destruct (gstate_eqb (g_state (G a)) REC) eqn:E; [apply gstate_eqb_eq in E; contradiction|apply andb_false_r]. }
      rewrite E in EC. cbn [negb] in EC. injection EC as EC. rewrite EC. apply wp_ret, FAIL. reflexivity. }
  2:{ intros L' HL' F Hs Hr. rewrite F, Hs in EC. cbn [andb negb gstate_eqb] in EC. destruct (N.eqb_spec (g_ref (G a)) 0); [contradiction|]. cbn [negb] in EC. injection EC as EC. rewrite EC. apply wp_ret, FAIL. reflexivity. }
  intros F Hs Hr. rewrite F, Hs, Hr in EC. cbn [andb negb gstate_eqb] in EC. change (0 =? 0) with true in EC. cbn [negb] in EC.
  destruct (rec_of_state c gh G V I _ Hs) as (r & d & R & Ar & Rd & O & _). pose proof R as [_ Mr]. pose proof Rd as [Sd Md].
  rewrite Mr in EC.
  set (G1 := upd G a (mkG REC 1 (CRec r))).
  assert (nrd : r_g_rd r <> a). { intro E. rewrite E in Sd. congruence. }
  apply wp_bind, wp_atomic_get; [apply upd_same|rewrite Hr; discriminate|]. rewrite Hs, Hr, Mr. change (0 + 1) with 1. fold G1.
  apply wp_bind, wp_granule_unlock; [apply upd_same| |].
  { unfold G1, uok. rewrite upd_same. cbn [g_state g_ref unlocked_inv]. lia. }
  apply wp_bind, wp_ns_access; [apply HS|]. intros S1 HS1.
  assert (BK : forall z, upd G1 a (mkG (g_state (G1 a)) 0 (g_mem (G1 a))) z = G z).
  { intro z. unfold G1, upd. rewrite N.eqb_refl. cbn [g_state g_mem]. destruct (N.eqb_spec z a) as [->|]; [|reflexivity]. destruct (G a) as [s n x]. cbn in *. congruence. }
  destruct en as [e|].
  2:{ apply wp_bind, wp_put_release; [unfold G1; rewrite upd_same; reflexivity|]. injection EC as EC. rewrite EC. apply wp_ret, FAIL.
      intro z. unfold G1 at 3. rewrite upd_same. apply BK. }
  apply wp_bind, wp_map_slot; [rewrite HS1; apply HS|].
  apply wp_bind. eapply wp_get_rec; [unfold G1; rewrite upd_same; reflexivity|].
  apply wp_bind, wp_map_slot; [rewrite upd_other by discriminate; rewrite HS1; apply HS|].
  apply wp_bind. eapply wp_get_rd; [unfold G1; rewrite upd_other by exact nrd; rewrite Md; reflexivity|].
  apply wp_bind, wp_unmap_slot; [apply upd_same|]. cbv zeta.
  assert (HS2 : forall z, upd (upd (upd S1 SLOT_REC true) SLOT_RD true) SLOT_RD false z = (z =? SLOT_REC)).
  { intro z. unfold upd. destruct (N.eqb_spec z SLOT_RD) as [->|]; [reflexivity|]. destruct (z =? SLOT_REC); [reflexivity|]. rewrite HS1. apply HS. }
  set (S2 := upd (upd (upd S1 SLOT_REC true) SLOT_RD true) SLOT_RD false) in *. clearbody S2.
  assert (OUT : forall L1, code <> RMI_SUCCESS -> wp False (q <- rec_enter_out a code exit_zero true ;; Ret (EReturn (fst q) (snd q))) (mkS L1 S2 G1 V T) Q).
  { intros L1 nc. apply wp_bind, wp_enter_out; [rewrite HS2; reflexivity..|unfold G1; rewrite upd_same; reflexivity|].
    intros S' G' HS' HG'. apply wp_ret. destruct (N.eqb_spec code RMI_SUCCESS); [contradiction|]. cbn [fst snd]. apply FAIL.
    intro z. rewrite HG'. apply BK. }
  rewrite Md in EC. assert (SOME : forall y, Some y = Some code -> y = code) by congruence.
  destruct (rd_state d =? REALM_NEW) eqn:En0; [apply SOME in EC; rewrite EC; apply OUT; rewrite <- EC; discriminate|].
  destruct (rd_state d =? REALM_SYSTEM_OFF) eqn:Eo; [apply SOME in EC; rewrite EC; apply OUT; rewrite <- EC; discriminate|].
  assert (Act : rd_state d = REALM_ACTIVE).
  { destruct (i_rd _ _ _ _ I _ Sd) as (d0 & M0 & RO & _). assert (d0 = d) by congruence. subst d0. destruct RO as (_ & X & _).
    apply N.eqb_neq in En0. apply N.eqb_neq in Eo.
    unfold REALM_NEW, REALM_ACTIVE, REALM_SYSTEM_OFF in *. clear -X En0 Eo. lia. }
  rewrite Act in *. change (negb (REALM_ACTIVE =? REALM_ACTIVE)) with false. cbn iota. change (REALM_ACTIVE =? REALM_NEW) with false in EC.
  destruct (negb (r_runnable r)); [cbn [orb] in EC; apply SOME in EC; rewrite EC; apply OUT; rewrite <- EC; discriminate|].
  destruct (r_psci_pending r); [cbn [orb] in EC; apply SOME in EC; rewrite EC; apply OUT; rewrite <- EC; discriminate|].
  destruct (negb (gic_validate_state (h_gic h) e)); [cbn [orb] in EC; apply SOME in EC; rewrite EC; apply OUT; rewrite <- EC; discriminate|].
  discriminate EC.
Qed.
End Code.

Lemma bad_code : forall c h G a ra en code, enter_bad c h G a ra en code -> enter_code c h G a ra en <> None.
Proof.
  intros c h G a ra en code H. unfold enter_code.
  destruct (find_granule c ra && gstate_eqb (g_state (G ra)) NS) eqn:B1; cbn [negb]; [|discriminate].
  destruct (find_granule c a && gstate_eqb (g_state (G a)) REC) eqn:B2; cbn [negb]; [|discriminate].
  destruct (N.eqb_spec (g_ref (G a)) 0) as [E|]; cbn [negb]; [|discriminate].
  apply andb_prop in B1. destruct B1 as [B1 B1']. apply gstate_eqb_eq in B1'. apply andb_prop in B2. destruct B2 as [B2 B2']. apply gstate_eqb_eq in B2'.
  destruct en as [e|]; [|discriminate].
  destruct H as [(_ & H)|[(_ & H)|(r & d & [Sr Mr] & [Sd Md] & H)]].
  - exfalso. destruct H as [H|[H|[H|[H|H]]]]; congruence.
  - contradiction.
  - rewrite Mr, Md. destruct (rd_state d =? REALM_NEW) eqn:E1; [discriminate|]. destruct (rd_state d =? REALM_SYSTEM_OFF) eqn:E2; [discriminate|].
    destruct H as [(_ & H)|[(_ & H)|(_ & H)]]; [rewrite H in E1; discriminate E1|rewrite H in E2; discriminate E2|].
    destruct H as [->|[->|(e0 & E0 & H)]]; [discriminate|rewrite orb_true_r; discriminate|]. injection E0 as ->. rewrite H. cbn [negb]. rewrite orb_true_r. discriminate.
Qed.

Lemma code_agree : forall c gh h G V G' a ra en, Inv c gh G V -> (forall g, granule_agree (G g) (G' g)) -> enter_code c h G a ra en = enter_code c h G' a ra en.
Proof.
  intros c gh h G V G' a ra en I A. unfold enter_code. destruct (A a) as (E1 & E2 & E3), (A ra) as (F1 & _). rewrite <- E1, <- E2, <- F1.
  destruct (find_granule c ra && gstate_eqb (g_state (G ra)) NS); [cbn [negb]|reflexivity].
  destruct (find_granule c a && gstate_eqb (g_state (G a)) REC) eqn:B; [cbn [negb]|reflexivity].
  destruct (negb (g_ref (G a) =? 0)); [reflexivity|]. destruct en as [e|]; [|reflexivity].
  apply andb_prop in B. destruct B as [_ B]. apply gstate_eqb_eq in B.
  destruct (i_rec _ _ _ _ I a B) as (_ & r & d & Mr & Rd & _). destruct (rec_to _ _ a r A (conj B Mr)) as (r' & [_ Mr'] & P & _).
  destruct (rd_to _ _ _ _ A Rd) as (d' & [_ Md'] & Pd). rewrite Mr, Mr'. apply public_rec in P. destruct P as (_ & P1 & _ & P2 & _ & P3 & _).
  rewrite <- P2, Md'. destruct Rd as [_ ->]. apply public_ctx in Pd. destruct Pd as [_ <-]. rewrite P1, P3. reflexivity.
Qed.

(** ** The completion of the last exit *)
Definition entry_fails (r : recd) (e : rec_enter) : bool :=
  (has (en_flags e) FLAG_INJECT_SEA && (negb (esr_ec (r_last_esr r) =? EC_DATA_ABORT) || addr_in_rec_par r (hpfar_fipa (r_last_hpfar r)))) ||
  (negb (has (en_flags e) FLAG_INJECT_SEA) && has (en_flags e) FLAG_EMUL_MMIO && (negb (esr_ec (r_last_esr r) =? EC_DATA_ABORT) || negb (has (r_last_esr r) ISV_BIT))).
(** The request for a change of RIPAS after the entry *)
Definition entry_req (q : set_ripas_req) (e : rec_enter) : set_ripas_req :=
  let resp := if has (en_flags e) FLAG_RIPAS_RESPONSE then REJECT else ACCEPT in
  if sr_base q =? sr_top q then mkReq (sr_base q) (sr_top q) (sr_addr q) (sr_ripas q) (sr_change_destroyed q) resp
  else mkReq 0 0 (sr_addr q) (sr_ripas q) (sr_change_destroyed q) resp.
Definition kept (r : recd) := (rec_public r, (r_last_esr r, r_last_hpfar r), r_gic r, (r_sys r CNTV_CTL_EL0, r_sys r CNTP_CTL_EL0), (r_sys r CNTVOFF_EL2, r_sys r CNTPOFF_EL2)).

Lemma kept_req : forall r r' q, kept r = kept r' -> kept (set_req r q) = kept (set_req r' q).
Proof.
  intros r r' q E. unfold kept, rec_public in E |- *. cbn [set_req r_idx r_runnable r_vttbr r_vtcr r_common_hcr r_mdcr r_set_ripas r_g_rd r_pmu_enabled r_pmu_num_ctrs r_algorithm r_simd r_ctx r_psci_pending r_aux r_host_call r_last_esr r_last_hpfar r_gic r_sys] in *.
  injection E as -> -> -> -> -> -> _ -> -> -> -> -> -> -> -> -> -> -> -> -> -> -> ->. reflexivity.
Qed.
Lemma some_inj : forall A (a b : A), Some a = Some b -> a = b.
Proof. congruence. Qed.
Lemma kept_mmio : forall r e r3, complete_mmio_emulation r e = Some r3 -> kept r3 = kept r.
Proof.
  intros r e r3 H. unfold complete_mmio_emulation in H. cbv zeta in H. destruct (negb (has (en_flags e) FLAG_EMUL_MMIO)); [injection H as <-; reflexivity|].
  destruct (has (en_flags e) FLAG_INJECT_SEA); [injection H as <-; reflexivity|]. destruct (_ || _); [discriminate H|]. apply some_inj in H. rewrite <- H. destruct (_ && _); reflexivity.
Qed.
Lemma kept_sysreg : forall r e, kept (complete_sysreg_emulation r e) = kept r.
Proof. intros r e. unfold complete_sysreg_emulation. destruct (negb _); [reflexivity|]. destruct (_ =? 0); [reflexivity|]. destruct (_ =? 31); reflexivity. Qed.
Lemma kept_inject : forall r esr far fsc r', inject_sync_idabort r esr far fsc = Some r' -> kept r' = kept r.
Proof.
  intros r esr far fsc r' H. unfold inject_sync_idabort in H. destruct (calc_esr_idabort _ _ _); [|discriminate H]. destruct (calc_vector_entry _ _ _); [|discriminate H].
  cbv zeta in H. apply some_inj in H. rewrite <- H. reflexivity.
Qed.

Lemma entry_effect : forall f r e, pend_ok r ->
  match entry_rec f r e with
  | Some r6 => entry_fails r e = false /\ kept r6 = kept (set_req (set_gic r (gic_copy_state_from_rec_entry f (r_gic r) e)) (entry_req (r_set_ripas r) e))
  | None => entry_fails r e = true
  end.
Proof.
  intros f r e (Hm & _). unfold entry_rec. cbv zeta. set (r1 := set_gic r _).
  pose proof (sea_some r1 e Hm) as Hsea.
  assert (Z : forall r2, kept r2 = kept r1 -> forall r3, complete_mmio_emulation r2 e = Some r3 -> 
    kept (complete_sysreg_emulation (complete_set_ripas (set_req r3 (mkReq (sr_base (r_set_ripas r3)) (sr_top (r_set_ripas r3)) (sr_addr (r_set_ripas r3)) (sr_ripas (r_set_ripas r3)) (sr_change_destroyed (r_set_ripas r3)) (if has (en_flags e) FLAG_RIPAS_RESPONSE then REJECT else ACCEPT)))) e) =
    kept (set_req r1 (entry_req (r_set_ripas r) e))).
  { intros r2 K r3 H. apply kept_mmio in H. rewrite K in H. rewrite kept_sysreg.
    assert (E : r_set_ripas r3 = r_set_ripas r). { apply (f_equal (fun k => fst (fst (fst (fst k))))) in H. exact (proj1 (proj2 (proj2 (public_rec _ _ H)))). }
    rewrite E. unfold complete_set_ripas, entry_req. cbv zeta. cbn [r_set_ripas set_req sr_base sr_top sr_addr sr_ripas sr_change_destroyed sr_response].
    destruct (sr_base (r_set_ripas r) =? sr_top (r_set_ripas r)); [apply kept_req, H|].
    match goal with |- kept (set_req ?x ?q) = _ => transitivity (kept (set_req r3 q)); [reflexivity|apply kept_req, H] end. }
  unfold entry_fails, complete_sea_insertion in *. change (r_last_esr r1) with (r_last_esr r) in *. change (r_last_hpfar r1) with (r_last_hpfar r) in *.
  change (addr_in_rec_par r1) with (addr_in_rec_par r) in *.
  destruct (has (en_flags e) FLAG_INJECT_SEA) eqn:F1; cbn [negb andb orb] in *.
  - destruct (esr_ec (r_last_esr r) =? EC_DATA_ABORT) eqn:F2; cbn [negb orb] in *; [|reflexivity].
    destruct (addr_in_rec_par r (hpfar_fipa (r_last_hpfar r))) eqn:F3; [reflexivity|].
    destruct (inject_sync_idabort r1 (r_last_esr r) (r_last_far r1) FSC_SEA) as [r2|] eqn:J; [|contradiction Hsea; reflexivity].
    destruct (complete_mmio_emulation r2 e) as [r3|] eqn:H3.
    + split; [reflexivity|]. eapply Z; [|exact H3]. eapply kept_inject, J.
    + exfalso. unfold complete_mmio_emulation in H3. rewrite F1 in H3. destruct (negb _); discriminate H3.
  - destruct (complete_mmio_emulation r1 e) as [r3|] eqn:H3.
    + split; [|eapply Z; [reflexivity|exact H3]]. unfold complete_mmio_emulation in H3. rewrite F1 in H3. change (r_last_esr r1) with (r_last_esr r) in H3.
      destruct (has (en_flags e) FLAG_EMUL_MMIO); cbn [negb andb] in *; [|reflexivity]. destruct (negb (esr_ec (r_last_esr r) =? EC_DATA_ABORT) || negb (has (r_last_esr r) ISV_BIT)); [discriminate H3|reflexivity].
    + unfold complete_mmio_emulation in H3. rewrite F1 in H3. change (r_last_esr r1) with (r_last_esr r) in H3.
      destruct (has (en_flags e) FLAG_EMUL_MMIO); cbn [negb andb] in *; [|discriminate H3]. destruct (negb (esr_ec (r_last_esr r) =? EC_DATA_ABORT) || negb (has (r_last_esr r) ISV_BIT)); [reflexivity|discriminate H3].
Qed.

(** ** RECs that agree in what was told *)
Definition W (r r' : recd) : Prop := rec_public r = rec_public r' /\ rec_told r = rec_told r'.
Lemma W_agree : forall r r', W r r' -> r_psci_pending r = false -> rec_agree r r'.
Proof. intros r r' [H _] P. split; [exact H|]. intro K. congruence. Qed.
Lemma W_parts : forall r r', W r r' -> esr_ec (r_last_esr r) = esr_ec (r_last_esr r') /\ has (r_last_esr r) ISV_BIT = has (r_last_esr r') ISV_BIT /\
  r_last_hpfar r = r_last_hpfar r' /\ gic_hcr (r_gic r) = gic_hcr (r_gic r') /\
  timer_asserted (r_sys r CNTV_CTL_EL0) = timer_asserted (r_sys r' CNTV_CTL_EL0) /\ timer_asserted (r_sys r CNTP_CTL_EL0) = timer_asserted (r_sys r' CNTP_CTL_EL0) /\
  r_sys r CNTVOFF_EL2 = r_sys r' CNTVOFF_EL2 /\ r_sys r CNTPOFF_EL2 = r_sys r' CNTPOFF_EL2 /\ (r_host_call r = true -> r_regs r 1 = r_regs r' 1).
Proof.
  intros r r' [P T]. apply public_rec in P. destruct P as (_ & _ & _ & _ & _ & _ & _ & P & _). unfold rec_told in T. rewrite <- P in T.
  assert (T9 := f_equal snd T). apply (f_equal fst) in T. assert (T8 := f_equal (fun k => snd (snd k)) T). assert (T7 := f_equal (fun k => fst (snd k)) T). apply (f_equal fst) in T.
  assert (T6 := f_equal (fun k => snd (snd k)) T). assert (T5 := f_equal (fun k => fst (snd k)) T). apply (f_equal fst) in T. assert (T4 := f_equal snd T). apply (f_equal fst) in T.
  assert (T3 := f_equal snd T). apply (f_equal fst) in T. assert (T2 := f_equal snd T). apply (f_equal fst) in T. cbn [fst snd] in *.
  repeat (split; [assumption|]). intros E. rewrite E in T9. exact T9.
Qed.
Lemma mk_told : forall r r', esr_ec (r_last_esr r) = esr_ec (r_last_esr r') -> has (r_last_esr r) ISV_BIT = has (r_last_esr r') ISV_BIT ->
  r_last_hpfar r = r_last_hpfar r' -> gic_hcr (r_gic r) = gic_hcr (r_gic r') ->
  timer_asserted (r_sys r CNTV_CTL_EL0) = timer_asserted (r_sys r' CNTV_CTL_EL0) -> timer_asserted (r_sys r CNTP_CTL_EL0) = timer_asserted (r_sys r' CNTP_CTL_EL0) ->
  r_sys r CNTVOFF_EL2 = r_sys r' CNTVOFF_EL2 -> r_sys r CNTPOFF_EL2 = r_sys r' CNTPOFF_EL2 -> (r_host_call r = true -> r_regs r 1 = r_regs r' 1) ->
  r_host_call r = r_host_call r' -> rec_told r = rec_told r'.
Proof. intros r r' H1 H2 H3 H4 H5 H6 H7 H8 H9 H10. unfold rec_told. rewrite H1, H2, H3, H4, H5, H6, H7, H8, <- H10. destruct (r_host_call r); [rewrite H9 by reflexivity|]; reflexivity. Qed.
Lemma public_req : forall r r' q, rec_public r = rec_public r' -> rec_public (set_req r q) = rec_public (set_req r' q).
Proof.
  intros r r' q E. unfold rec_public in E |- *. cbn [set_req r_idx r_runnable r_vttbr r_vtcr r_common_hcr r_mdcr r_set_ripas r_g_rd r_pmu_enabled r_pmu_num_ctrs r_algorithm r_simd r_ctx r_psci_pending r_aux r_host_call] in *.
  injection E as -> -> -> -> -> -> _ -> -> -> -> -> -> -> -> ->. reflexivity.
Qed.

Lemma entry_same : forall f r r' e, W r r' -> pend_ok r -> pend_ok r' ->
  match entry_rec f r e, entry_rec f r' e with Some r6, Some r6' => W r6 r6' | None, None => True | _, _ => False end.
Proof.
  intros f r r' e H PO PO'. pose proof (entry_effect f r e PO) as E. pose proof (entry_effect f r' e PO') as E'.
  pose proof (W_parts _ _ H) as (H1 & H2 & H3 & H4 & H5 & H6 & H7 & H8 & H9). pose proof H as [P _]. pose proof (public_rec _ _ P) as (_ & _ & P1 & _ & P2 & _ & _ & P3 & _).
  assert (EF : entry_fails r e = entry_fails r' e).
  { unfold entry_fails, addr_in_rec_par, rec_par_size, rec_ipa_size. rewrite H1, H2, H3, P2. reflexivity. }
  destruct (entry_rec f r e) as [r6|] eqn:X, (entry_rec f r' e) as [r6'|] eqn:X'; try exact Logic.I; try (destruct E; congruence); try (destruct E'; congruence).
  destruct E as [_ E], E' as [_ E']. pose proof (entry_keeps _ _ _ _ X) as (_ & K2 & _ & _ & _ & _ & _ & _ & K9). pose proof (entry_keeps _ _ _ _ X') as (_ & K2' & _ & _ & _ & _ & _ & _ & K9').
  assert (Q : rec_public r6 = rec_public r6').
  { apply (f_equal (fun k => fst (fst (fst (fst k))))) in E. apply (f_equal (fun k => fst (fst (fst (fst k))))) in E'. cbn [kept fst] in E, E'. rewrite E, E', P1. apply public_req. exact P. }
  split; [exact Q|]. 
  pose proof (f_equal (fun k => snd (fst (fst (fst k)))) E) as EL. pose proof (f_equal (fun k => snd (fst (fst (fst k)))) E') as EL'.
  pose proof (f_equal (fun k => snd (fst (fst k))) E) as EG. pose proof (f_equal (fun k => snd (fst (fst k))) E') as EG'.
  pose proof (f_equal (fun k => snd (fst k)) E) as ET. pose proof (f_equal (fun k => snd (fst k)) E') as ET'.
  pose proof (f_equal snd E) as EO. pose proof (f_equal snd E') as EO'. clear E E'. cbn [kept fst snd set_req set_gic r_last_esr r_last_hpfar r_gic r_sys] in *.
  injection EL as L1 L2. injection EL' as L1' L2'. injection ET as T1 T2. injection ET' as T1' T2'. injection EO as O1 O2. injection EO' as O1' O2'.
  apply mk_told; try congruence.
  - rewrite EG, EG'. cbn [gic_hcr gic_copy_state_from_rec_entry]. rewrite H4. reflexivity.
  - intros B. rewrite K2 in B. destruct PO as (_ & PO & _). destruct (PO B) as (A1 & A2 & _). rewrite (K9 A1 A2). rewrite P3 in B. destruct PO' as (_ & PO' & _). destruct (PO' B) as (A1' & A2' & _). rewrite (K9' A1' A2'). apply H9. congruence.
Qed.

Lemma public_hc : forall r r' b, rec_public r = rec_public r' -> rec_public (set_host_call r b) = rec_public (set_host_call r' b).
Proof.
  intros r r' q E. unfold rec_public in E |- *. cbn [set_host_call r_idx r_runnable r_vttbr r_vtcr r_common_hcr r_mdcr r_set_ripas r_g_rd r_pmu_enabled r_pmu_num_ctrs r_algorithm r_simd r_ctx r_psci_pending r_aux r_host_call] in *.
  injection E as -> -> -> -> -> -> -> -> -> -> -> -> -> -> -> _. reflexivity.
Qed.
Lemma W_hc : forall r r', W r r' -> W (set_host_call r false) (set_host_call r' false).
Proof.
  intros r r' H. pose proof (W_parts _ _ H) as (H1 & H2 & H3 & H4 & H5 & H6 & H7 & H8 & H9). destruct H as [P _]. split; [apply public_hc, P|].
  apply mk_told; try assumption; [discriminate|reflexivity].
Qed.
Lemma W_reg : forall r r' v, W r r' -> W (set_reg r 0 v) (set_reg r' 0 v).
Proof.
  intros r r' v H. pose proof (W_parts _ _ H) as (H1 & H2 & H3 & H4 & H5 & H6 & H7 & H8 & H9). destruct H as [P _]. split; [exact P|].
  apply mk_told; try assumption. apply (public_rec _ _ P).
Qed.

Inductive lab_same : label -> label -> Prop :=
| ls_rec : forall a r1 r1' r2 r2' n, rec_agree r2 r2' -> lab_same (LRec a r1 r2 n) (LRec a r1' r2' n)
| ls_data : forall g n f f', lab_same (LFree g (mkG DATA n (CW f))) (LFree g (mkG DATA n (CW f'))).

Lemma hc_same : forall c gh G V G' rd x r6 r6' e labs o labs' o', Inv c gh G V -> W r6 r6' ->
  hc_out gh G rd x r6 e labs o -> hc_out gh G' rd x r6' e labs' o' ->
  Forall2 lab_same labs labs' /\ match o, o' with inl r7, inl r7' => W r7 r7' | inr l, inr l' => l = l' | _, _ => False end.
Proof.
  intros c gh G V G' rd x r6 r6' e labs o labs' o' I H K K'.
  pose proof (W_parts _ _ H) as (_ & _ & _ & _ & _ & _ & _ & _ & H9). pose proof H as [P _]. pose proof (public_rec _ _ P) as (_ & _ & _ & _ & _ & _ & _ & P3 & _).
  destruct K as [(B & -> & ->)|[(B & l & b & pa & g & f & LF & Eg & D & Mg & -> & ->)|(B & -> & l & b & z & LF & N & Hl & ->)]];
  destruct K' as [(B' & -> & ->)|[(B' & l' & b' & pa' & g' & f' & LF' & Eg' & D' & Mg' & -> & ->)|(B' & -> & l' & b' & z' & LF' & N' & Hl' & ->)]]; try congruence.
  - split; [constructor|exact H].
  - rewrite (H9 B) in *. destruct (leaf_unique _ _ _ _ I _ _ _ _ _ _ _ _ LF LF') as (-> & _ & E). injection E as ->. subst g g'.
    split; [constructor; [constructor|constructor]|]. apply W_hc, W_reg, H.
  - rewrite (H9 B) in *. destruct (leaf_unique _ _ _ _ I _ _ _ _ _ _ _ _ LF LF') as (_ & _ & E). exfalso. apply (N' pa). congruence.
  - rewrite (H9 B) in *. destruct (leaf_unique _ _ _ _ I _ _ _ _ _ _ _ _ LF LF') as (_ & _ & E). exfalso. apply (N pa'). congruence.
  - rewrite (H9 B) in *. destruct (leaf_unique _ _ _ _ I _ _ _ _ _ _ _ _ LF LF') as (-> & _ & ->). split; [constructor|]. destruct (e_ripas z'); try reflexivity. apply W_hc, H.
Qed.

Lemma labs_agree : forall c labs labs', Forall2 lab_same labs labs' -> forall gh G V gh1 G1 V1 gh' G' V' gh1' G1' V1',
  geffs c gh G V labs gh1 G1 V1 -> geffs c gh' G' V' labs' gh1' G1' V1' -> (forall g, granule_agree (G g) (G' g)) -> forall g, granule_agree (G1 g) (G1' g).
Proof.
  intros c labs labs' F. induction F as [|lab lab' labs labs' K F IH]; intros gh G V gh1 G1 V1 gh' G' V' gh1' G1' V1' E E' A.
  - inversion E; subst. inversion E'; subst. intros z. 
    repeat match goal with X : forall z, _ = _ |- _ => rewrite X; clear X end. apply A.
  - inversion E as [|? ? ? ? gh2 G2 V2 ? ? ? ? X1 X2]; subst. inversion E' as [|? ? ? ? gh2' G2' V2' ? ? ? ? X1' X2']; subst. clear E E'.
    assert (A2 : forall g, granule_agree (G2 g) (G2' g)).
    { inversion K; subst; inversion X1; subst; inversion X1'; subst; intro z.
      - destruct (N.eq_dec z a) as [->|NE].
        + match goal with X : G2 a = _, Y : G2' a = _ |- _ => rewrite X, Y end. split; [reflexivity|]. split; [reflexivity|]. right. right. assumption.
        + match goal with X : forall z, _ -> G2 z = _, Y : forall z, _ -> G2' z = _ |- _ => rewrite X, Y by exact NE end. apply A.
      - destruct (N.eq_dec z g) as [->|NE].
        + repeat match goal with X : ?q g = mkG _ _ _ |- _ => rewrite X; clear X | X : mkG _ _ _ = ?q g |- _ => rewrite <- X; clear X end. split; [reflexivity|]. split; [reflexivity|]. left. reflexivity.
        + match goal with X : forall z, _ -> G2 z = _, Y : forall z, _ -> G2' z = _ |- _ => rewrite X, Y by exact NE end. apply A. }
    exact (IH _ _ _ _ _ _ _ _ _ _ _ _ X2 X2' A2).
Qed.
