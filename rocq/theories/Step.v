(** What single steps do to granules, realms, RECs and pages *)
From Coq Require Import NArith ZArith List Bool Lia ZifyBool ZifyN.
From Verif Require Import Bits S2tte S2tteFacts State Granule Wp RecFields Measure RmiRtt RmiRealm Psci RmiRec Gic Esr Rsi RecRun
  Arch ArchFacts Mmu Machine Spec SpecStep SpecExit Inv InvTree MmuFacts InvStep InvStep2 InvStep3 Effects Frames CmdLib CmdData CmdRipas
  CmdRec CmdRealm CmdRsi2 CmdRun CmdRun2 CmdAll MInv MStep View StepView Own.
Import ListNotations.
Local Open Scope N_scope.

(** The facts about a step *)
Lemma next_good : forall c h m o m' rp, next c h m o m' rp -> exists gh gh' labs, MInv c gh m /\ MInv c gh' m' /\
  geffs c gh (m_gr m) (m_vmids m) labs gh' (m_gr m') (m_vmids m') /\ op_eff c h gh m o rp gh' labs m'.
Proof.
  intros c h m o m' rp (R & OK & ST). destruct (reach_minv _ _ _ R) as (gh & M). destruct R as (C & _).
  destruct (minv_step c h gh m C M o m' rp OK ST) as (gh' & labs & M' & GE & OE). eauto 8.
Qed.
Lemma steps_app : forall c h m l m1 l' m', steps c h m l m1 -> steps c h m1 l' m' -> steps c h m (l ++ l') m'.
Proof. intros c h m l m1 l' m' H. induction H; intro K; [exact K|]. cbn. econstructor; eauto. Qed.
Lemma next_reachable : forall c h m o m' rp, next c h m o m' rp -> reachable c h m'.
Proof.
  intros c h m o m' rp ((C & mem & l & S & F) & OK & ST). split; [exact C|]. exists mem, (l ++ [(o, rp)]). split.
  - eapply steps_app; [exact S|]. econstructor; [exact ST|constructor].
  - rewrite map_app. apply Forall_app. split; [exact F|]. constructor; [exact OK|constructor].
Qed.

(** Lists of effects on one granule *)
Fixpoint gchanges (c : cfg) (labs : list label) (z : N) (g g' : granule) : Prop :=
  match labs with
  | [] => g' = g
  | lab :: rest => exists g1, gchange c lab z g g1 /\ gchanges c rest z g1 g'
  end.
Lemma geffs_gran : forall c gh G V labs gh' G' V', geffs c gh G V labs gh' G' V' -> Inv c gh G V -> forall z, gchanges c labs z (G z) (G' z).
Proof.
  intros c gh G V labs gh' G' V' H. induction H as [gh G V G' V' HG HV|gh G V lab gh1 G1 V1 labs gh' G' V' H1 H2 IH]; intros I z; [apply HG|].
  exists (G1 z). split; [apply (geff_gran _ _ _ _ _ _ _ _ I H1)|]. apply IH. eapply geff_inv; eassumption.
Qed.
Lemma gchanges_app : forall c l1 l2 z g g', gchanges c (l1 ++ l2) z g g' <-> exists g1, gchanges c l1 z g g1 /\ gchanges c l2 z g1 g'.
Proof.
  intros c l1. induction l1 as [|a l1 IH]; intros l2 z g g'; cbn [app gchanges].
  - split; [intro H; exists g; auto|intros (g1 & -> & H); exact H].
  - split.
    + intros (g1 & H1 & H2). apply IH in H2. destruct H2 as (g2 & H2 & H3). exists g2. split; [exists g1; auto|exact H3].
    + intros (g2 & (g1 & H1 & H2) & H3). exists g1. split; [exact H1|]. apply IH. exists g2. auto.
Qed.
Lemma gchanges_chg : forall c rd l u es z m n i g g', gchanges c (chg rd l u es n i m) z g g' -> g' = g \/ rtt_upd g g'.
Proof.
  intros c rd l u es z m. induction m as [|m IH]; intros n i g g' H; [left; exact H|]. rewrite chg_S in H. destruct H as (g1 & [->|H1] & H2); [eauto|].
  right. apply IH in H2. cbn in H1. destruct H2 as [->|H2]; [exact H1|]. destruct H1 as (A & _), H2 as (_ & B). split; assumption.
Qed.
Lemma gchanges_one : forall c lab z g g', gchanges c [lab] z g g' <-> gchange c lab z g g'.
Proof. intros. cbn [gchanges]. split; [intros (g1 & H & ->); exact H|intro H; exists g'; auto]. Qed.

(** The effects of exits and entries, by kind *)
Lemma run_labs : forall c h gh G d ev fi tm a v simd labs o, run_out c h gh G d ev fi tm a v simd labs o ->
  exists pre r' n, labs = pre ++ [LRec a (v_rec v) r' n] /\
   (pre = [] \/
    (exists g f', pre = [LFree g (mkG DATA 0 (CW f'))] /\ exists p, dmap gh g = Some (r_g_rd (v_rec v), p)) \/
    (ev_exc ev = ExcSync /\ esr_ec (ev_esr ev) = EC_SMC /\
     ((rsi_fid v = SMC_RSI_FID 3 /\ exists i, i = r_regs (v_rec v) 1 /\ 1 <= i < 5 /\ r_regs (v_rec v) 2 <= 64 /\
        pre = [LRd (r_g_rd (v_rec v)) d (set_meas d i (c_hash c (rd_algorithm d) (rd_meas d i :: extend_bytes (r_regs (v_rec v)) (r_regs (v_rec v) 2))))]) \/
      ((psci_fid v = SMC32_PSCI_SYSTEM_OFF \/ psci_fid v = SMC32_PSCI_SYSTEM_RESET) /\
        pre = [LRd (r_g_rd (v_rec v)) d (set_rd_state d REALM_SYSTEM_OFF)])))).
Proof.
  intros c h gh G d ev fi tm a v simd labs o H.
  assert (E : forall labs o, exit_out c h gh G d ev v simd labs o -> 
     labs = [] \/
    (exists g f', labs = [LFree g (mkG DATA 0 (CW f'))] /\ exists p, dmap gh g = Some (r_g_rd (v_rec v), p)) \/
    (ev_exc ev = ExcSync /\ esr_ec (ev_esr ev) = EC_SMC /\
     ((rsi_fid v = SMC_RSI_FID 3 /\ exists i, i = r_regs (v_rec v) 1 /\ 1 <= i < 5 /\ r_regs (v_rec v) 2 <= 64 /\
        labs = [LRd (r_g_rd (v_rec v)) d (set_meas d i (c_hash c (rd_algorithm d) (rd_meas d i :: extend_bytes (r_regs (v_rec v)) (r_regs (v_rec v) 2))))]) \/
      ((psci_fid v = SMC32_PSCI_SYSTEM_OFF \/ psci_fid v = SMC32_PSCI_SYSTEM_RESET) /\
        labs = [LRd (r_g_rd (v_rec v)) d (set_rd_state d REALM_SYSTEM_OFF)])))).
  { clear. intros labs o H. destruct H as [| | |r' He Hr|r' x' simd' go Hx He Hs|labs o Hx He Hs]; auto.
    destruct Hs; auto.
    - right. left. exists g, f'. split; [reflexivity|]. match goal with H : ram_page _ _ _ _ |- _ => destruct H as (? & ? & ? & _ & _ & D) end. eauto.
    - right. right. split; [exact Hx|]. split; [exact He|]. left. split; [assumption|]. exists i. subst. auto.
    - right. right. split; [exact Hx|]. split; [exact He|]. right. split; [assumption|reflexivity]. }
  destruct H as [labs v1 simd' l X _ _|labs v1 simd' l v' X _ _ _|labs v1 simd' v' X _]; apply E in X; eauto 8.
Qed.

Lemma ent_labs : forall c h fi tm gh G a ra en at_ labs o, ent_out c h fi tm gh G a ra en at_ labs o ->
  labs = [] \/ exists r d r', is_rec G a r /\ is_rd G (r_g_rd r) d /\ g_ref (G a) = 0 /\ rd_state d = REALM_ACTIVE /\ r_runnable r = true /\
   (labs = [LRec a r r' 0] \/
    exists r1 hl n, labs = LRec a r r1 1 :: hl ++ [LRec a r1 r' n] /\
      (hl = [] \/ (r_host_call r = true /\ exists g f', hl = [LFree g (mkG DATA 0 (CW f'))] /\ exists p, dmap gh g = Some (r_g_rd r, p)))).
Proof.
  intros c h fi tm gh G a ra en at_ labs o H.
  assert (HC : forall r r6 e hl o, entry_rec (h_gic h) r e = Some r6 -> hc_out gh G (r_g_rd r) (r_ctx r) r6 e hl o -> 
    hl = [] \/ (r_host_call r = true /\ exists g f', hl = [LFree g (mkG DATA 0 (CW f'))] /\ exists p, dmap gh g = Some (r_g_rd r, p))).
  { intros r r6 e hl o0 ER [(_ & -> & _)|[(K & l & b & pa & g & f & _ & -> & D & _ & -> & _)|(_ & -> & _)]]; auto.
    right. split; [|eauto 8]. rewrite <- K. symmetry. apply entry_keeps in ER. apply ER. }
  destruct H; [auto|right..].
  - exists r, d. eexists. repeat (split; [eassumption|]). left. reflexivity.
  - exists r, d. eexists. repeat (split; [eassumption|]). left. reflexivity.
  - exists r, d. eexists. repeat (split; [eassumption|]). right. exists r1, hl. eexists. split; [reflexivity|]. eapply HC; eassumption.
  - exists r, d. eexists. repeat (split; [eassumption|]). right. exists r1, hl. eexists. split; [reflexivity|]. eapply HC; eassumption.
Qed.

(* ------------------------------------------------------------------ *)
(** * States of granules *)

(** The changes of state an effect makes *)
Definition lmove (lab : label) (z : N) (s s' : gstate) : Prop :=
  match lab with
  | LAssign _ _ _ _ pa _ => z = pa /\ s = DELEGATED /\ s' = DATA
  | LRelease _ _ _ _ pa => z = pa /\ s = DATA /\ s' = DELEGATED
  | LAttach _ _ _ _ b => z = b /\ s = DELEGATED /\ s' = RTT
  | LFold _ _ _ _ b | LDestroy _ _ _ _ b => z = b /\ s = RTT /\ s' = DELEGATED
  | LRecCreate _ a _ _ rc => (z = a /\ s = DELEGATED /\ s' = REC) \/ (In z (r_aux rc) /\ s = DELEGATED /\ s' = REC_AUX)
  | LRecDestroy _ a rc => (z = a /\ s = REC /\ s' = DELEGATED) \/ (In z (r_aux rc) /\ s = REC_AUX /\ s' = DELEGATED)
  | LRealmCreate rd d => (z = rd /\ s = DELEGATED /\ s' = RD) \/
      ((exists k, k < num_root_rtts (rd_ctx d) /\ z = g_rtt (rd_ctx d) + k * 4096) /\ s = DELEGATED /\ s' = RTT)
  | LRealmDestroy rd d => (z = rd /\ s = RD /\ s' = DELEGATED) \/
      ((exists k, k < num_root_rtts (rd_ctx d) /\ z = g_rtt (rd_ctx d) + k * 4096) /\ s = RTT /\ s' = DELEGATED)
  | _ => False
  end.

Lemma gchange_state : forall c lab z g g', gchange c lab z g g' -> (forall g1, lab <> LFree z g1) ->
  g_state g' = g_state g \/ lmove lab z (g_state g) (g_state g').
Proof.
  intros c lab z g g' [->|H] NF; [left; reflexivity|].
  assert (RI : forall d, root_idx (g_rtt (rd_ctx d)) (num_root_rtts (rd_ctx d)) z <> None ->
     exists k, k < num_root_rtts (rd_ctx d) /\ z = g_rtt (rd_ctx d) + k * 4096).
  { intros d K. destruct (root_idx _ _ z) as [k|] eqn:E; [|congruence]. apply root_idx_some in E. destruct E. eauto. }
  destruct lab; cbn [lmove];
    repeat match goal with
    | H : _ \/ _ |- _ => destruct H
    | H : _ /\ _ |- _ => destruct H
    | H : exists _, _ |- _ => destruct H
    | H : rtt_upd _ _ |- _ => unfold rtt_upd in H
    | H : gone _ _ |- _ => unfold gone in H
    | H : g' = mkG _ _ _ |- _ => subst g'
    end; cbn [g_state] in *; try (left; congruence); try (right; tauto); try (right; right; auto).
  all: subst; exfalso; eapply NF; reflexivity.
Qed.

Lemma geff_moved : forall c gh G V lab gh' G' V' z s s', Inv c gh G V -> geff c gh G V lab gh' G' V' -> lmove lab z s s' ->
  g_state (G z) = s /\ g_state (G' z) = s'.
Proof.
  intros c gh G V lab gh' G' V' z s s' I H L.
  assert (OW : forall a rd l t, own gh a = Some (rd, l, t) -> g_state (G a) = RTT) by (intros; eapply own_rtt; eassumption).
  destruct H; cbn [lmove] in L; try contradiction.
  - destruct L as (-> & -> & ->). match goal with H : ?F pa = mkG _ _ _ |- _ => rewrite H end. auto.
  - destruct L as (-> & -> & ->). match goal with H : ?F pa = mkG _ _ _ |- _ => rewrite H end. split; [|reflexivity].
    pose proof (inv_own _ _ _ _ I _ _ _ _ _ H H0) as T. pose proof (t_entries _ _ _ _ _ _ _ T i H1) as [_ EE].
    assert (D : dmap gh pa = Some (rd, 512 * t + i)).
    { assert (K : forall q, q / pg 3 = 512 * t + i -> dmap gh (pa + q mod pg 3 * 4096) = Some (rd, q))
        by (destruct (ent gh a i); try discriminate; injection H2 as ->; apply EE).
      rewrite <- (K (512 * t + i)); [|rewrite pg_3; apply N.div_1_r]. rewrite pg_3, N.mod_1_r, N.mul_0_l, N.add_0_r. reflexivity. }
    apply (i_dmap _ _ _ _ I _ _ _ D).
  - destruct L as (-> & -> & ->). match goal with H : ?F b = _ |- _ => rewrite H end. auto.
  - destruct L as (-> & -> & ->). match goal with H : ?F b = _ |- _ => rewrite H end. split; [|reflexivity].
    destruct (own_child _ _ _ _ I _ _ _ _ _ _ H H1 H2) as (Ob & _). eauto.
  - destruct L as (-> & -> & ->). match goal with H : ?F b = _ |- _ => rewrite H end. split; [|reflexivity].
    destruct (own_child _ _ _ _ I _ _ _ _ _ _ H H1 H2) as (Ob & _). eauto.
  - destruct L as [(-> & -> & ->)|(IN & -> & ->)].
    + match goal with H : ?F r = mkG _ _ _ |- _ => rewrite H end. auto.
    + split; [apply H4, IN|]. match goal with H : forall z, In z _ -> exists f, _ |- _ => destruct (H z IN) as (f & ->) end. reflexivity.
  - destruct H as [S M]. destruct L as [(-> & -> & ->)|(IN & -> & ->)].
    + match goal with H : ?F r = mkG _ _ _ |- _ => rewrite H end. auto.
    + destruct (i_rec _ _ _ _ I r S) as (_ & rc2 & d2 & M2 & _ & _ & _ & X). rewrite M in M2. injection M2 as <-.
      split; [apply (i_auxo _ _ _ _ I _ _ (X z IN))|]. match goal with H : forall z, In z _ -> _ = mkG _ _ _ |- _ => rewrite (H z IN) end. reflexivity.
  - destruct L as [(-> & -> & ->)|((k & K & ->) & -> & ->)].
    + match goal with H : ?F rd = mkG _ _ _ |- _ => rewrite H end. auto.
    + split; [apply H0, K|]. match goal with H : forall k, _ -> exists f, _ |- _ => destruct (H k K) as (f & -> & _) end. reflexivity.
  - destruct L as [(-> & -> & ->)|((k & K & ->) & -> & ->)].
    + match goal with H : ?F rd = mkG _ _ _ |- _ => rewrite H end. destruct H. auto.
    + split; [|match goal with H : forall k, _ -> _ = mkG _ _ _ |- _ => rewrite (H k K) end; reflexivity].
      eapply OW. apply (i_root _ _ _ _ I _ _ _ H K).
Qed.

Lemma lfree_state : forall c a g1 z g g', gchange c (LFree a g1) z g g' -> g_state g1 <> NS -> g_state g1 <> DELEGATED -> g_state g' = g_state g.
Proof.
  intros c a g1 z g g' [->|(-> & -> & [(_ & F)|(_ & f & ->)])] N1 N2; try reflexivity. apply fr_state in F. tauto.
Qed.
Lemma lquiet_state : forall c lab z g g', gchange c lab z g g' -> match lab with LRd _ _ _ | LRec _ _ _ _ | LEntry _ _ _ _ _ => True | _ => False end -> g_state g' = g_state g.
Proof. intros c lab z g g' H L. apply gchange_state in H; [|destruct lab; try discriminate; contradiction]. destruct H as [H|H]; [exact H|]. destruct lab; contradiction. Qed.

(** Only commands change the state of a granule *)
Lemma noncmd_state : forall c h m o m' rp, next c h m o m' rp -> (forall p k, o <> OCmd p k) -> forall a, g_state (m_gr m' a) = g_state (m_gr m a).
Proof.
  intros c h m o m' rp H NC a. destruct (next_good _ _ _ _ _ _ H) as (gh & gh' & labs & M & M' & GE & OE). clear H.
  pose proof (geffs_gran _ _ _ _ _ _ _ _ GE (mv_inv _ _ _ M) a) as GC. unfold op_eff in OE. destruct o.
  - exfalso. eapply NC. reflexivity.
  - destruct OE as (_ & -> & out & EO & _). apply ent_labs in EO.
    destruct EO as [->|(r & d & r' & _ & _ & _ & _ & _ & [->|(r1 & hl & n & -> & HL)])].
    + cbn in GC. congruence.
    + apply gchanges_one in GC. eapply lquiet_state; [exact GC|exact Logic.I].
    + destruct GC as (g1 & G1 & GC). apply gchanges_app in GC. destruct GC as (g2 & G2 & G3). apply gchanges_one in G3.
      apply lquiet_state in G1; [|exact Logic.I]. apply lquiet_state in G3; [|exact Logic.I]. rewrite G3, <- G1.
      destruct HL as [->|(_ & g & f' & -> & _)]; [cbn in G2; congruence|]. apply gchanges_one in G2. eapply lfree_state; [exact G2|discriminate|discriminate].
  - destruct OE as (-> & ru & r & d & out & at_ & simd & _ & _ & _ & RO & _). apply run_labs in RO. destruct RO as (pre & r' & n & -> & P).
    apply gchanges_app in GC. destruct GC as (g2 & G2 & G3). apply gchanges_one in G3. apply lquiet_state in G3; [|exact Logic.I]. rewrite G3.
    destruct P as [->|[(g & f' & -> & _)|(_ & _ & [(_ & i & _ & _ & _ & ->)|(_ & ->)])]]; [cbn in G2; congruence|apply gchanges_one in G2..].
    + eapply lfree_state; [exact G2|discriminate|discriminate].
    + eapply lquiet_state; [exact G2|exact Logic.I].
    + eapply lquiet_state; [exact G2|exact Logic.I].
  - destruct OE as (_ & _ & _ & ru & r & _ & _ & ->). apply gchanges_one in GC. eapply lquiet_state; [exact GC|exact Logic.I].
  - destruct OE as (_ & _ & _ & ru & r & d & l & w & oa & ns & xn & f & _ & _ & _ & _ & _ & _ & _ & ->). apply gchanges_one in GC.
    eapply lquiet_state; [exact GC|exact Logic.I].
  - destruct OE as (_ & _ & _ & ru & r & d & l & w & oa & ns & xn & f & _ & _ & _ & _ & _ & S & _ & ->). apply gchanges_one in GC.
    destruct GC as [->|(-> & -> & _)]; reflexivity.
  - destruct OE as (_ & _ & -> & _). cbn in GC. congruence.
  - destruct OE as (_ & _ & _ & ru & r & _ & _ & _ & S & ->). apply gchanges_one in GC.
    destruct GC as [->|(-> & -> & _)]; [reflexivity|]. rewrite S. reflexivity.
  - destruct OE as (_ & _ & _ & f & S & _ & ->). apply gchanges_one in GC. destruct GC as [->|(-> & -> & _)]; [reflexivity|]. rewrite S. reflexivity.
Qed.

Lemma root_ctx : forall c p, num_root_rtts (rd_ctx (created_rd c p)) = p_rtt_num_start p /\ g_rtt (rd_ctx (created_rd c p)) = p_rtt_base p.
Proof. intros. split; reflexivity. Qed.

Lemma aux_in : forall p n z, In z (aux_list p n) <-> exists i, i < n /\ z = rp_aux p i.
Proof.
  intros p n z. unfold aux_list. rewrite in_map_iff. split.
  - intros (i & <- & H). apply in_seq in H. exists (N.of_nat i). split; [lia|reflexivity].
  - intros (i & H & ->). exists (N.to_nat i). rewrite N2Nat.id. split; [reflexivity|]. apply in_seq. lia.
Qed.

Lemma moved : forall c h m o m' rp a, next c h m o m' rp -> g_state (m_gr m' a) <> g_state (m_gr m a) ->
  moves m o rp a (g_state (m_gr m a)) (g_state (m_gr m' a)).
Proof.
  intros c h m o m' rp a H NE. destruct o as [p k| | | | | | | |]; try (exfalso; apply NE; eapply noncmd_state; [exact H|discriminate]).
  destruct (next_good _ _ _ _ _ _ H) as (gh & gh' & labs & M & M' & GE & OE). clear H.
  pose proof (mv_inv _ _ _ M) as I.
  pose proof (geffs_gran _ _ _ _ _ _ _ _ GE I a) as GC. clear GE.
  destruct OE as (_ & r & inv & -> & K & _). unfold cmd_eff in K. cbv zeta in K.
  assert (NIL : labs = [] -> False) by (intros ->; apply NE; cbn in GC; congruence).
  assert (DN : x0 r = RMI_SUCCESS -> done (OCmd p k) (Reply r) k r) by (intro; exists p; auto).
  assert (CHG : forall rd l u es n i mm x, labs = chg rd l u es n i mm ++ [x] -> match x with LRd _ _ _ | LRec _ _ _ _ => True | _ => False end -> False).
  { intros rd l u es n i mm x -> X. apply gchanges_app in GC. destruct GC as (g1 & G1 & G2). apply gchanges_one in G2.
    apply lquiet_state in G2; [|destruct x; (exact X || contradiction)]. apply gchanges_chg in G1. apply NE. rewrite G2. destruct G1 as [->|(X1 & X2 & _)]; congruence. }
  assert (ONE : forall lab, labs = [lab] -> (forall g1, lab <> LFree a g1) -> lmove lab a (g_state (m_gr m a)) (g_state (m_gr m' a))).
  { intros lab -> NF. apply gchanges_one in GC. apply gchange_state in GC; [|exact NF]. destruct GC as [GC|GC]; [contradiction|exact GC]. }
  destruct k.
  all: try (destruct K as [(_ & (-> & _) & _)|(OK & K)]; [exfalso; apply NIL; reflexivity|]; specialize (DN OK)).
  all: try (exfalso; apply NIL; apply K).
  - destruct K as (-> & _ & S & _). apply gchanges_one in GC. destruct GC as [GC|(-> & -> & _)]; [congruence|]. rewrite S. eapply mv_delegate. exact DN.
  - destruct K as (-> & _ & S). apply gchanges_one in GC. destruct GC as [GC|(-> & -> & _)]; [congruence|]. rewrite S. eapply mv_undelegate. exact DN.
  - destruct K as (_ & d & e & f & _ & _ & _ & _ & _ & _ & _ & _ & _ & ->). destruct GC as (g1 & G1 & G2). apply lquiet_state in G1; [|exact Logic.I].
    apply gchanges_one in G2. rewrite <- G1 in *. apply gchange_state in G2; [|discriminate]. destruct G2 as [G2|(-> & -> & ->)]; [contradiction|].
    eapply mv_data_create. exact DN.
  - destruct K as (_ & d & e & _ & _ & _ & _ & ->). destruct (ONE _ eq_refl) as (-> & -> & ->); [discriminate|]. eapply mv_data_unknown. exact DN.
  - destruct K as (d & e & wi & _ & _ & _ & _ & -> & _). destruct (ONE _ eq_refl) as (-> & -> & ->); [discriminate|]. eapply mv_data_destroy. exact DN.
  - destruct K as (_ & d & _ & _ & ->). destruct (ONE _ eq_refl); discriminate.
  - destruct K as (_ & q & -> & _ & _ & _ & _ & _ & _ & _ & ->). destruct (ONE _ eq_refl) as [(-> & -> & ->)|((k & Hk & ->) & -> & ->)]; [discriminate| |].
    + eapply mv_realm_create. exact DN.
    + eapply mv_realm_create_rtt; [exact DN|exact Hk].
  - destruct K as (_ & d & R & _ & _ & ->). destruct (ONE _ eq_refl) as [(-> & -> & ->)|((k & Hk & ->) & -> & ->)]; [discriminate| |].
    + eapply mv_realm_destroy. exact DN.
    + eapply mv_realm_destroy_rtt; [exact DN|exact R|exact Hk].
  - destruct K as (_ & q & d & rc & -> & R & _ & _ & _ & _ & _ & EN & -> & ->). destruct (ONE _ eq_refl) as [(-> & -> & ->)|(IN & -> & ->)]; [discriminate| |].
    + eapply mv_rec_create. exact DN.
    + change (In a (aux_list q (rp_num_aux q mod 2 ^ 32))) in IN. apply aux_in in IN. destruct IN as (i & Hi & ->). eapply mv_rec_create_aux; [exact DN|].
      rewrite EN in Hi. destruct R as [S MM]. destruct (i_rd _ _ _ _ I _ S) as (d2 & M2 & RO & _). rewrite MM in M2. injection M2 as <-.
      destruct RO as (_ & _ & _ & E).
      change 16 with MAX_REC_AUX_GRANULES. congruence.
  - destruct K as (_ & rc & R & _ & ->). destruct (ONE _ eq_refl) as [(-> & -> & ->)|(IN & -> & ->)]; [discriminate| |].
    + eapply mv_rec_destroy. exact DN.
    + eapply mv_rec_destroy_aux; [exact DN|exact R|exact IN].
  - destruct K as (d & e & _ & _ & _ & _ & -> & _). destruct (ONE _ eq_refl) as (-> & -> & ->); [discriminate|]. eapply mv_rtt_create. exact DN.
  - destruct K as (d & e & wi & _ & _ & _ & _ & -> & _). destruct (ONE _ eq_refl) as (-> & -> & ->); [discriminate|]. eapply mv_rtt_destroy. exact DN.
  - destruct K as (_ & d & _ & _ & _ & _ & _ & _ & ->). destruct (ONE _ eq_refl); discriminate.
  - destruct K as (d & at_ & pa & wi & _ & _ & _ & _ & _ & -> & _). destruct (ONE _ eq_refl); discriminate.
  - destruct K as (_ & [(_ & -> & _)|(rc & rt & rc' & rt' & _ & _ & _ & _ & _ & ->)]); [exfalso; apply NIL; reflexivity|].
    destruct GC as (g1 & G1 & G2). apply gchanges_one in G2. apply lquiet_state in G1; [|exact Logic.I]. apply lquiet_state in G2; [|exact Logic.I]. congruence.
  - destruct K as (d & e' & _ & _ & _ & _ & -> & _). destruct (ONE _ eq_refl) as (-> & -> & ->); [discriminate|]. eapply mv_rtt_fold. exact DN.
  - destruct K as (_ & d & wi & mm & _ & _ & _ & _ & _ & _ & _ & _ & E). exfalso. eapply CHG; [exact E|exact Logic.I].
  - destruct K as (d & rc & wi & mm & _ & _ & _ & _ & _ & _ & _ & _ & _ & E & _). exfalso. eapply CHG; [exact E|exact Logic.I].
Qed.

Lemma moves_states : forall c h m o m' rp a s s', next c h m o m' rp -> moves m o rp a s s' ->
  g_state (m_gr m a) = s /\ g_state (m_gr m' a) = s'.
Proof.
  intros c h m o m' rp a s s' H MV. destruct (next_good _ _ _ _ _ _ H) as (gh & gh' & labs & M & M' & GE & OE).
  pose proof (mv_inv _ _ _ M) as I.
  assert (ONE : forall lab, labs = [lab] -> lmove lab a s s' -> g_state (m_gr m a) = s /\ g_state (m_gr m' a) = s').
  { intros lab -> L. inversion GE as [|? ? ? ? gh1 G1 V1 ? ? ? ? X1 X2]; subst. inversion X2 as [? ? ? ? ? HG HV|]; subst. rewrite HG.
    eapply geff_moved; [exact I|exact X1|exact L]. }
  assert (FR : forall g, labs = [LFree a g] -> g_state (m_gr m' a) = g_state g).
  { intros g ->. inversion GE as [|? ? ? ? gh1 G1 V1 ? ? ? ? X1 X2]; subst. inversion X2 as [? ? ? ? ? HG HV|]; subst. rewrite HG. inversion X1; subst. reflexivity. }
  destruct MV; match goal with D : done _ _ _ _ |- _ => destruct D as (p0 & -> & -> & OK) end;
    destruct OE as (_ & r0 & inv & E & K & _); injection E as <-; unfold cmd_eff in K; cbv zeta in K;
    (destruct K as [(NO & _)|(_ & K)]; [contradiction|]).
  - destruct K as (-> & _ & S & _). split; [exact S|]. rewrite (FR _ eq_refl). reflexivity.
  - destruct K as (-> & _ & S). split; [exact S|]. rewrite (FR _ eq_refl). reflexivity.
  - destruct K as (_ & d & e & f & _ & _ & _ & _ & _ & _ & _ & _ & _ & ->).
    inversion GE as [|? ? ? ? gh1 G1 V1 ? ? ? ? X1 X2]; subst. inversion X2 as [|? ? ? ? gh2 G2 V2 ? ? ? ? X3 X4]; subst. inversion X4 as [? ? ? ? ? HG HV|]; subst.
    rewrite HG. pose proof (geff_gran _ _ _ _ _ _ _ _ I X1 data) as GC. apply lquiet_state in GC; [|exact Logic.I]. rewrite <- GC.
    eapply geff_moved; [eapply geff_inv; eassumption|exact X3|]. cbn. auto.
  - destruct K as (_ & d & e & _ & _ & _ & _ & ->). eapply ONE; [reflexivity|]. cbn. auto.
  - destruct K as (d & e & wi & _ & _ & _ & _ & -> & _). eapply ONE; [reflexivity|]. cbn. auto.
  - destruct K as (d & e & _ & _ & _ & _ & -> & _). eapply ONE; [reflexivity|]. cbn. auto.
  - destruct K as (d & e & wi & _ & _ & _ & _ & -> & _). eapply ONE; [reflexivity|]. cbn. auto.
  - destruct K as (d & e' & _ & _ & _ & _ & -> & _). eapply ONE; [reflexivity|]. cbn. auto.
  - destruct K as (_ & q & -> & _ & _ & _ & _ & _ & _ & _ & ->). eapply ONE; [reflexivity|]. cbn. auto.
  - destruct K as (_ & q & Eq & _ & _ & _ & _ & _ & _ & _ & ->). injection Eq as <-. eapply ONE; [reflexivity|]. right. split; [|auto]. exists k. auto.
  - destruct K as (_ & d & R & _ & _ & ->). eapply ONE; [reflexivity|]. cbn. auto.
  - destruct K as (_ & d2 & R & _ & _ & ->). match goal with X : realm _ _ _ |- _ => destruct R as [R1 R2], X as [R3 R4] end. rewrite R4 in R2. injection R2 as <-.
    eapply ONE; [reflexivity|]. right. split; [|auto]. exists k. auto.
  - destruct K as (_ & q & d & rc & -> & R & _ & _ & _ & _ & _ & EN & -> & ->). eapply ONE; [reflexivity|]. cbn. auto.
  - destruct K as (_ & q & d & rc & Eq & R & _ & _ & _ & _ & _ & EN & -> & ->). injection Eq as <-. eapply ONE; [reflexivity|]. right. split; [|auto].
    change (In (rp_aux p i) (aux_list p (rp_num_aux p mod 2 ^ 32))). apply aux_in. exists i. split; [|reflexivity].
    destruct R as [S MM]. destruct (i_rd _ _ _ _ I _ S) as (d2 & M2 & RO & _). rewrite MM in M2. injection M2 as <-.
    destruct RO as (_ & _ & _ & E). rewrite EN, E. assumption.
  - destruct K as (_ & rc & R & _ & ->). eapply ONE; [reflexivity|]. cbn. auto.
  - destruct K as (_ & rc2 & R & _ & ->). match goal with X : rec_is _ _ _ |- _ => destruct R as [R1 R2], X as [R3 R4] end. rewrite R4 in R2. injection R2 as <-.
    eapply ONE; [reflexivity|]. right. auto.
Qed.

(** The edges of the life of a granule *)
Lemma edges : forall c h m o m' rp a, next c h m o m' rp -> g_state (m_gr m' a) <> g_state (m_gr m a) ->
  g_state (m_gr m a) = DELEGATED \/ g_state (m_gr m' a) = DELEGATED.
Proof. intros c h m o m' rp a H NE. pose proof (moved _ _ _ _ _ _ _ H NE) as MV. inversion MV; auto. Qed.
Lemma to_host : forall c h m o m' rp a, next c h m o m' rp -> g_state (m_gr m a) <> NS -> g_state (m_gr m' a) = NS ->
  exists e r, done o rp (KGranuleUndelegate e a) r /\ g_state (m_gr m a) = DELEGATED.
Proof.
  intros c h m o m' rp a H N1 N2. assert (NE : g_state (m_gr m' a) <> g_state (m_gr m a)) by congruence.
  pose proof (moved _ _ _ _ _ _ _ H NE) as MV. rewrite N2 in MV. inversion MV; subst. eauto.
Qed.
