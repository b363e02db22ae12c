(** Effect of RMI_REC_ENTER and of every exit of a realm *)
From Coq Require Import NArith ZArith List Bool Lia ZifyBool ZifyN.
From Verif Require Import Bits S2tte S2tteFacts State Granule Wp RecFields Measure RmiGranule RmiRtt RmiRealm Psci RmiRec
  Gic Esr Rsi RecRun SpecExit ExitFacts Inv InvTree InvStep InvStep2 InvStep3 Effects CmdLib CmdRtt CmdFold CmdRtt2 CmdNs CmdData CmdRipas
  CmdRec CmdRsi CmdRsi2 CmdRun.
Import ListNotations.
Local Open Scope N_scope.

Definition ent_post (c : cfg) (gh : ghost) (G : N -> granule) (V : N -> bool) (T : list tlbe) (P : list label -> enter_out -> Prop)
    (o : enter_out) (s' : state) : Prop :=
  exists L' S' G' labs, s' = mkS L' S' G' V T /\ free L' /\
    (forall z, S' z = match o with ERun _ => busy z | EReturn _ _ => false end) /\
    geffs c gh G V labs gh G' V /\ P labs o.

Lemma ident_parts : forall r r', ident r' = ident r -> r_aux r' = r_aux r /\ r_ctx r' = r_ctx r /\ r_g_rd r' = r_g_rd r /\ r_idx r' = r_idx r.
Proof. intros r r' H. unfold ident in H. injection H. intros. auto. Qed.

(** The descriptor of a REC that runs is not the one a host call writes to *)
Lemma hc_other : forall c gh G V labs G' a r, Inv c gh G V -> is_rec G a r -> geffs c gh G V labs gh G' V ->
  (labs = [] \/ exists g f, dmap gh g <> None /\ labs = [LFree g (mkG DATA 0 (CW f))]) -> G' a = G a.
Proof.
  intros c gh G V labs G' a r I R H [->|(g & f & D & ->)].
  - inversion H; subst. auto.
  - inversion H as [|? ? ? ? ? ? ? ? ? ? ? H1 H2]; subst. inversion H2; subst.
    assert (ng : a <> g). { intros ->. destruct (dmap gh g) as [[rd p]|] eqn:D'; [|congruence].
      destruct (i_dmap _ _ _ _ I _ _ _ D') as (S & _). destruct R as [R _]. congruence. }
    match goal with H : forall z, G' z = _ |- _ => rewrite H end.
    remember (LFree g (mkG DATA 0 (CW f))) as lab eqn:El. remember gh as gh0 in H1 at 2.
    destruct H1; try discriminate El. injection El as -> _.
    match goal with H : forall z, z <> g -> _ |- _ => apply H, ng end.
Qed.

Section Enter.
Variables (c : cfg) (gh : ghost) (G : N -> granule) (V : N -> bool).
Hypothesis I : Inv c gh G V.
Variables (L S : N -> bool) (T : list tlbe).
Hypothesis HL : free L.
Variables (a : N) (r : recd) (d : rdesc).
Hypothesis R : is_rec G a r.
Hypothesis Rf : g_ref (G a) = 1.
Hypothesis HS : forall z, S z = (z =? SLOT_REC).
Hypothesis Rd : is_rd G (r_g_rd r) d.
Hypothesis O : rec_ok c d r.
Variables (f : gicf) (fi : fin) (tm : timers) (e : rec_enter) (at_ : att).

Lemma wp_enter_run : forall (E : Prop) r6,
  (forall l, hc_out gh G (r_g_rd r) (r_ctx r) r6 e [] (inr l) -> (l < 0)%Z -> E) ->
  ident r6 = ident r -> (r_host_call r6 = true -> r_regs r6 1 < 2 ^ (ipa_bits (r_ctx r) - 1)) ->
  wp E (rec_enter_run c f fi tm e a r6 at_) (mkS L S G V T) (fun o s' =>
    exists L' S' G' hl, s' = mkS L' S' G' V T /\ free L' /\
    (forall z, S' z = match o with ERun _ => busy z | EReturn _ _ => false end) /\
    ((exists l, hc_out gh G (r_g_rd r) (r_ctx r) r6 e [] (inr l) /\ (0 <= l)%Z /\ hl = [] /\
        o = answer (fi_wok fi) (fault_exit r6 exit_zero l) /\ (forall z, G' z = upd G a (mkG REC 0 (CRec r6)) z)) \/
     (exists G2 r7 l, hc_out gh G (r_g_rd r) (r_ctx r) r6 e hl (inl r7) /\ geffs c gh G V hl gh G2 V /\ G2 a = G a /\
        l = loop_head tm (mkV (start_rec r7 e) exit_zero at_) /\
        ((snd l = true /\ o = ERun (v_exit (fst l)) /\ (forall z, G' z = upd G2 a (mkG REC 1 (CRec (v_rec (fst l)))) z)) \/
         (snd l = false /\ exists v', v' = run_end f fi (fst l, false) /\ o = answer (fi_wok fi) (v_exit v') /\
            (forall z, G' z = upd G2 a (mkG REC 0 (CRec (v_rec v'))) z)))))).
Proof.
  intros E r6 HE Hid Hp. unfold rec_enter_run.
  match goal with |- wp _ _ _ ?q => set (Q := q) end.
  pose proof R as [St M].
  assert (La : length (r_aux r) = 16%nat) by apply O. assert (Ectx : r_ctx r = rd_ctx d) by apply O.
  unfold ident in Hid. pose proof Hid as Hid0. injection Hid0 as I1 I2 I3 I4 I5 I6 I7 I8 I9 I10 I11 I12 I13.
  (* the rest of the command, when the REC runs *)
  assert (GO : forall hl r7 L1 S1 G2, hc_out gh G (r_g_rd r) (r_ctx r) r6 e hl (inl r7) -> geffs c gh G V hl gh G2 V -> G2 a = G a ->
     (forall z, L1 z = L z) -> (forall z, S1 z = S z) ->
     wp E (map_aux (r_aux (start_rec r7 e)) 0 ;;;
           let l := loop_head tm (mkV (start_rec r7 e) exit_zero at_) in
           put_rec a (v_rec (fst l)) ;;;
           (if snd l then Ret (ERun (v_exit (fst l)))
            else q <- rec_run_finish f fi a (v_exit (fst l)) at_ false ;; Ret (EReturn (fst q) (snd q)))) (mkS L1 S1 G2 V T) Q).
  { intros hl r7 L1 S1 G2 HC GE Ga HL1 HS1. pose proof (hc_keeps _ _ _ _ _ _ _ _ HC) as (K1 & _).
    pose proof (start_keeps r7 e) as (K2 & _).
    set (l := loop_head tm (mkV (start_rec r7 e) exit_zero at_)). cbv zeta. fold l.
    pose proof (head_keeps tm (mkV (start_rec r7 e) exit_zero at_)) as (K3 & _ & _ & _ & _ & Ka). fold l in K3, Ka. cbn [v_rec v_att] in K3, Ka.
    assert (La7 : r_aux (start_rec r7 e) = r_aux r).
    { apply ident_parts in K1. apply ident_parts in K2. destruct K1 as (K1 & _), K2 as (K2 & _). congruence. }
    apply wp_bind, wp_map_aux. { intros k _. rewrite HS1, HS. change SLOT_REC_AUX0 with 6. change SLOT_REC with 3. clear; lia. }
    intros S2 HS2. rewrite La7, La in HS2. change (N.of_nat 16) with 16 in HS2.
    assert (B2 : forall z, S2 z = busy z).
    { intro z. rewrite HS2, HS1, HS. unfold busy. change SLOT_REC_AUX0 with 6. change SLOT_RTT with 22. change SLOT_REC with 3. clear. lia. }
    apply wp_bind, wp_put_rec. rewrite Ga, St, Rf.
    destruct (snd l) eqn:Hl.
    - apply wp_ret. exists L1, S2. eexists. exists hl. split; [reflexivity|]. split; [intro z; rewrite HL1; apply HL|]. split; [exact B2|].
      right. exists G2, r7, l. split; [exact HC|]. split; [exact GE|]. split; [exact Ga|]. split; [reflexivity|]. left. split; [exact Hl|]. split; reflexivity.
    - apply wp_bind, (wp_finish _ V _ _ _ _ (v_rec (fst l))).
      + split; rewrite upd_same; reflexivity.
      + rewrite upd_same; reflexivity.
      + apply ident_parts in K3. destruct K3 as (-> & _). rewrite La7. exact La.
      + exact B2.
      + intros S' G' FS HG. apply wp_ret. exists L1, S', G', hl. split; [reflexivity|]. split; [intro z; rewrite HL1; apply HL|].
        split; [exact FS|]. right. exists G2, r7, l. split; [exact HC|]. split; [exact GE|]. split; [exact Ga|]. split; [reflexivity|]. right.
        assert (Ev : mkV (v_rec (fst l)) (v_exit (fst l)) at_ = fst l) by (destruct (fst l); cbn in *; congruence).
        split; [exact Hl|]. eexists. split; [reflexivity|]. rewrite Ev in *. split.
        * unfold answer. destruct (fi_wok fi); reflexivity.
        * intro z. rewrite HG. unfold upd. destruct (z =? a); reflexivity. }
  destruct (r_host_call r6) eqn:Hh; cbn [negb].
  2:{ apply wp_bind, wp_ret. cbn [fst snd]. cbv zeta.
      apply (GO [] r6 L S G); try reflexivity.
      - left. auto.
      - apply gs_nil; reflexivity. }
  apply wp_bind, wp_bind.
  assert (Sok : slots_ok S). { unfold slots_ok. rewrite !HS. repeat split; reflexivity. }
  assert (R6 : is_rd G (r_g_rd (v_rec (mkV r6 exit_zero at_))) d). { cbn [v_rec]. replace (r_g_rd r6) with (r_g_rd r) by congruence. exact Rd. }
  assert (E6 : r_ctx (v_rec (mkV r6 exit_zero at_)) = rd_ctx d) by (cbn [v_rec]; congruence).
  eapply wp_conseq; [apply (wp_complete_host_call c gh G V I L S T HL Sok (mkV r6 exit_zero at_) d R6 E6 e)|intros []|].
  { cbn [v_rec]. rewrite <- Ectx. apply Hp. reflexivity. }
  cbn [v_rec]. intros o s' (L1 & S1 & G2 & labs & -> & HL1 & HS1 & GE & Hout).
  assert (Erd : r_g_rd r6 = r_g_rd r) by congruence. rewrite Erd in Hout. rewrite <- Ectx in Hout.
  destruct Hout as [(l & b & pa & g & f0 & LF & Eg & D & Mg & -> & ->)|(-> & l & b & x & LF & nx & Hl & ->)]; cbn [fst snd].
  - apply wp_ret. cbn [fst snd]. cbv zeta. eapply GO; try eassumption.
    + right. left. split; [exact Hh|]. exists l, b, pa, g, f0. repeat (split; [eassumption|]). split; reflexivity.
    + eapply hc_other; [exact I|exact R|exact GE|]. right. do 2 eexists. split; [|reflexivity]. congruence.
  - inversion GE; subst.
    assert (Ga : G2 a = G a) by auto.
    destruct (e_ripas x) eqn:Hx.
    + apply wp_ret. cbn [fst snd]. cbv zeta. eapply GO; try eassumption.
      right. right. split; [exact Hh|]. split; [reflexivity|]. exists l, b, x. repeat (split; [eassumption|]). rewrite Hx. reflexivity.
    + apply wp_bind. unfold emulate_stage2_data_abort.
      destruct (Z.leb_spec 0 l) as [Hz|Hz]; cbn [andb].
      2:{ assert (X : E). { apply (HE l); [|lia]. right. right. split; [exact Hh|]. split; [reflexivity|]. exists l, b, x. repeat (split; [eassumption|]). rewrite Hx. reflexivity. }
          unfold wp. cbn. exact X. }
      apply wp_bind, wp_assert; [apply Z.leb_le; lia|]. apply wp_ret. apply wp_ret. cbn [fst snd].
      apply wp_bind, wp_put_rec. apply wp_bind, wp_enter_out.
      * rewrite HS1, HS. reflexivity.
      * rewrite HS1, HS. reflexivity.
      * rewrite upd_same. cbn [g_ref]. rewrite Ga. exact Rf.
      * intros S' G' HS' HG'. apply wp_ret. exists L1, S', G', []. split; [reflexivity|]. split; [intro z; rewrite HL1; apply HL|].
        split. { intro z. change (RMI_SUCCESS =? RMI_SUCCESS) with true. cbn iota. assert (X : S' z = false). { rewrite HS'. unfold upd. rewrite HS1, HS. destruct (z =? SLOT_REC); reflexivity. } destruct (fi_wok fi); exact X. }
        left. exists l. split. { right. right. split; [exact Hh|]. split; [reflexivity|]. exists l, b, x. repeat (split; [eassumption|]). rewrite Hx. reflexivity. }
        split; [exact Hz|]. split; [reflexivity|]. split. { unfold answer. destruct (fi_wok fi); reflexivity. }
        intro z. rewrite HG'. unfold upd. rewrite N.eqb_refl. cbn [g_state g_mem]. destruct (z =? a); [rewrite Ga, St; reflexivity|auto].
    + apply wp_bind. unfold emulate_stage2_data_abort.
      destruct (Z.leb_spec 0 l) as [Hz|Hz]; cbn [andb].
      2:{ assert (X : E). { apply (HE l); [|lia]. right. right. split; [exact Hh|]. split; [reflexivity|]. exists l, b, x. repeat (split; [eassumption|]). rewrite Hx. reflexivity. }
          unfold wp. cbn. exact X. }
      apply wp_bind, wp_assert; [apply Z.leb_le; lia|]. apply wp_ret. apply wp_ret. cbn [fst snd].
      apply wp_bind, wp_put_rec. apply wp_bind, wp_enter_out.
      * rewrite HS1, HS. reflexivity.
      * rewrite HS1, HS. reflexivity.
      * rewrite upd_same. cbn [g_ref]. rewrite Ga. exact Rf.
      * intros S' G' HS' HG'. apply wp_ret. exists L1, S', G', []. split; [reflexivity|]. split; [intro z; rewrite HL1; apply HL|].
        split. { intro z. change (RMI_SUCCESS =? RMI_SUCCESS) with true. cbn iota. assert (X : S' z = false). { rewrite HS'. unfold upd. rewrite HS1, HS. destruct (z =? SLOT_REC); reflexivity. } destruct (fi_wok fi); exact X. }
        left. exists l. split. { right. right. split; [exact Hh|]. split; [reflexivity|]. exists l, b, x. repeat (split; [eassumption|]). rewrite Hx. reflexivity. }
        split; [exact Hz|]. split; [reflexivity|]. split. { unfold answer. destruct (fi_wok fi); reflexivity. }
        intro z. rewrite HG'. unfold upd. rewrite N.eqb_refl. cbn [g_state g_mem]. destruct (z =? a); [rewrite Ga, St; reflexivity|auto].
Qed.
End Enter.

Lemma sea_some : forall r e, realm_mode (r_pstate r) -> complete_sea_insertion r e <> None.
Proof.
  intros r e M. unfold complete_sea_insertion. destruct (negb _); [discriminate|].
  destruct (N.eqb_spec (esr_ec (r_last_esr r)) EC_DATA_ABORT) as [Hec|]; cbn [negb]; [|discriminate].
  destruct (addr_in_rec_par _ _); [discriminate|]. unfold inject_sync_idabort.
  assert (K : exists e1, calc_esr_idabort (r_last_esr r) (r_pstate r) FSC_SEA = Some e1).
  { unfold calc_esr_idabort. rewrite Hec. change (negb (N.ldiff FSC_SEA FSC_MASK =? 0)) with false.
    change (negb ((EC_DATA_ABORT =? EC_INST_ABORT) || (EC_DATA_ABORT =? EC_DATA_ABORT))) with false. eauto. }
  destruct K as (e1 & ->). destruct (mode_vec (r_sys r VBAR_EL1) (r_pstate r) (has (r_sys r SCTLR2_EL1) SCTLR2_EASE_BIT) M) as (p & ->).
  discriminate.
Qed.

Lemma rec_app : forall c gh G V labs G1 a r r' n G', geffs c gh G V labs gh G1 V -> is_rec G1 a r -> ident r' = ident r ->
  (forall d, rd_ctx d = r_ctx r -> req_ok d (r_set_ripas r) -> req_ok d (r_set_ripas r')) -> n <= 1 ->
  (forall z, G' z = upd G1 a (mkG REC n (CRec r')) z) -> geffs c gh G V (labs ++ [LRec a r r' n]) gh G' V.
Proof.
  intros c gh G V labs G1 a r r' n G' H R E Q Hn HG. eapply geffs_app; [exact H|]. intros G2 V2 H1 H2.
  eapply gs_cons; [|apply gs_nil; [reflexivity|intro z; symmetry; apply H2]].
  apply rec_label; try assumption.
  - destruct R as [R1 R2]. split; rewrite H1; assumption.
  - intro z. rewrite HG. unfold upd. destruct (z =? a); [reflexivity|]. symmetry. apply H1.
Qed.

Section RecEnter.
Variables (c : cfg) (gh : ghost) (G : N -> granule) (V : N -> bool).
Hypothesis I : Inv c gh G V.
Variables (L S : N -> bool) (T : list tlbe).
Hypothesis HL : free L.
Hypothesis HS : free S.
Variables (h : hw) (fi : fin) (tm : timers) (rec_addr run_addr : N) (enter : option rec_enter) (at_ : att).
Hypothesis PO : forall r, is_rec G rec_addr r -> pend_ok r.

(** Finding F6: the emulated abort of a realm whose first level is -1 *)
Definition f6_enter : Prop := exists r, is_rec G rec_addr r /\ r_host_call r = true /\ (s2_sl (r_ctx r) < 0)%Z.

(** The same, exactly *)
Definition enter_stops (en : option rec_enter) : Prop := exists r d e r6 l, en = Some e /\ is_rec G rec_addr r /\ g_ref (G rec_addr) = 0 /\
  entry_rec (h_gic h) r e = Some r6 /\ is_rd G (r_g_rd r) d /\ hc_out gh G (r_g_rd r) (r_ctx r) r6 e [] (inr l) /\ (l < 0)%Z.

Let Q := ent_post c gh G V T (ent_out c h fi tm gh G rec_addr run_addr enter at_).

Lemma wp_enter_stops : wp (enter_stops enter) (smc_rec_enter c h fi tm rec_addr run_addr enter at_) (mkS L S G V T) Q.
Proof.
  pose proof (inv_uok _ _ _ _ I) as U.
  assert (FAIL : forall L' S' G' code, (forall z, L' z = false) -> (forall z, S' z = false) -> (forall z, G' z = G z) ->
     enter_bad c h G rec_addr run_addr enter code -> Q (EReturn code None) (mkS L' S' G' V T)).
  { intros L' S' G' code H1 H2 H3 H4. exists L', S', G', []. split; [reflexivity|]. split; [exact H1|]. split; [exact H2|].
    split; [apply gs_nil; auto|]. apply en_bad, H4. }
  unfold smc_rec_enter. cbv zeta.
  assert (NS0 : forall p : prog enter_out, wp (enter_stops enter) p (mkS L S G V T) Q ->
     wp (enter_stops enter) (ns <- (if find_granule c run_addr then st <- rd_state_ run_addr ;; Ret (gstate_eqb st NS) else Ret false) ;;
        if negb ns then Ret (EReturn RMI_ERROR_INPUT None) else p) (mkS L S G V T) Q).
  { intros p Hp. apply wp_bind. destruct (find_granule c run_addr) eqn:F.
    - apply wp_bind, wp_rd_state, wp_ret. destruct (gstate_eqb (g_state (G run_addr)) NS) eqn:E; cbn [negb]; [exact Hp|].
      apply wp_ret, FAIL; auto. left. split; [reflexivity|]. right. left. intro N. rewrite N in E. discriminate.
    - apply wp_ret. cbn [negb]. apply wp_ret, FAIL; auto. left. auto. }
  apply NS0. clear NS0.
  apply wp_bind, wp_find_lock_unused; [apply HL|apply U| | |].
  2:{ intros L' HL' Hb. apply wp_ret, FAIL; auto; [intro z; rewrite HL'; apply HL|]. left. split; [reflexivity|]. destruct Hb; auto. }
  2:{ intros L' HL' F Hs Hr. apply wp_ret, FAIL; auto; [intro z; rewrite HL'; apply HL|]. right. left. auto. }
  intros F Hs Hr.
  destruct (rec_of_state c gh G V I _ Hs) as (r & d & R & Ar & Rd & O & _).
  destruct (PO r R) as (Hm & Hh & _).
  pose proof R as [_ Mr].
  set (G1 := upd G rec_addr (mkG REC 1 (CRec r))).
  assert (HG1 : forall z, upd G rec_addr (mkG (g_state (G rec_addr)) (g_ref (G rec_addr) + 1) (g_mem (G rec_addr))) z = G1 z).
  { intro z. unfold G1, upd. rewrite Hs, Hr, Mr. reflexivity. }
  assert (nrd : r_g_rd r <> rec_addr). { intro E. destruct Rd as [E1 _]. rewrite E in E1. congruence. }
  apply wp_bind, wp_atomic_get; [apply upd_same|rewrite Hr; discriminate|]. rewrite Hs, Hr, Mr. fold G1. change (0 + 1) with 1. fold G1.
  apply wp_bind, wp_granule_unlock; [apply upd_same| |].
  { unfold G1, uok. rewrite upd_same. cbn [g_state g_ref unlocked_inv]. lia. }
  assert (FL : forall z, upd (upd L rec_addr true) rec_addr false z = false).
  { intro z. unfold upd. destruct (z =? rec_addr); [reflexivity|apply HL]. }
  set (L1 := upd (upd L rec_addr true) rec_addr false) in *. clearbody L1.
  apply wp_bind, wp_ns_access; [apply HS|]. intros S1 HS1.
  assert (BK : forall G' z, (forall z, G' z = upd G1 rec_addr (mkG (g_state (G1 rec_addr)) 0 (g_mem (G1 rec_addr))) z) -> G' z = G z).
  { intros G' z H. rewrite H. unfold upd, G1. rewrite upd_same. cbn [g_state g_mem]. destruct (N.eqb_spec z rec_addr) as [->|n].
    - destruct (G rec_addr). cbn in *. congruence.
    - apply upd_other, n. }
  destruct enter as [e|].
  2:{ apply wp_bind, wp_put_release; [unfold G1; rewrite upd_same; reflexivity|]. apply wp_ret, FAIL; [exact FL|intro z; rewrite HS1; apply HS| |].
      - intro z. apply BK. intro z0. unfold G1 at 3. rewrite !upd_same. reflexivity.
      - left. split; [reflexivity|]. auto. }
  apply wp_bind, wp_map_slot; [rewrite HS1; apply HS|].
  apply wp_bind. eapply wp_get_rec; [unfold G1; rewrite upd_same; reflexivity|].
  apply wp_bind, wp_map_slot; [rewrite upd_other by discriminate; rewrite HS1; apply HS|].
  apply wp_bind. eapply wp_get_rd; [unfold G1; rewrite upd_other by exact nrd; destruct Rd as [_ ->]; reflexivity|].
  apply wp_bind, wp_unmap_slot; [apply upd_same|]. cbv zeta.
  assert (HS2 : forall z, upd (upd (upd S1 SLOT_REC true) SLOT_RD true) SLOT_RD false z = (z =? SLOT_REC)).
  { intro z. unfold upd. destruct (N.eqb_spec z SLOT_RD) as [->|]; [reflexivity|]. destruct (z =? SLOT_REC); [reflexivity|]. rewrite HS1. apply HS. }
  set (S2 := upd (upd (upd S1 SLOT_REC true) SLOT_RD true) SLOT_RD false) in *. clearbody S2.
  assert (OUT : forall G2 code, (forall z, z <> rec_addr -> G2 z = G z) -> (exists r', G2 rec_addr = mkG REC 1 (CRec r')) -> code <> RMI_SUCCESS ->
     (forall S' G', (forall z, S' z = false) -> (forall z, G' z = upd G2 rec_addr (mkG REC 0 (g_mem (G2 rec_addr))) z) -> Q (EReturn code None) (mkS L1 S' G' V T)) ->
     wp (enter_stops (Some e)) (q <- rec_enter_out rec_addr code exit_zero true ;; Ret (EReturn (fst q) (snd q))) (mkS L1 S2 G2 V T) Q).
  { intros G2 code H1 (r' & H2) nc H3. apply wp_bind, wp_enter_out; [rewrite HS2; reflexivity..|rewrite H2; reflexivity|].
    intros S' G' HS' HG'. apply wp_ret. destruct (N.eqb_spec code RMI_SUCCESS); [contradiction|]. cbn [fst snd]. apply H3.
    - intro z. rewrite HS'. unfold upd. rewrite HS2. destruct (z =? SLOT_REC); reflexivity.
    - intro z. rewrite HG'. unfold upd. rewrite H2. reflexivity. }
  assert (BAD : forall code, code <> RMI_SUCCESS -> enter_bad c h G rec_addr run_addr (Some e) code ->
     wp (enter_stops (Some e)) (q <- rec_enter_out rec_addr code exit_zero true ;; Ret (EReturn (fst q) (snd q))) (mkS L1 S2 G1 V T) Q).
  { intros code nc Hb. apply OUT; [|exists r; apply upd_same|exact nc|].
    - intros z n. apply upd_other, n.
    - intros S' G' H1 H2. apply FAIL; auto. intro z. apply BK. intro z0. rewrite H2. unfold G1. rewrite !upd_same. reflexivity. }
  assert (BR : forall code, ((code = pack_return_code RMI_ERROR_REALM 0 /\ rd_state d = REALM_NEW) \/
      (code = pack_return_code RMI_ERROR_REALM 1 /\ rd_state d = REALM_SYSTEM_OFF) \/
      (code = RMI_ERROR_REC /\ (r_runnable r = false \/ r_psci_pending r = true \/
         exists e0, Some e = Some e0 /\ gic_validate_state (h_gic h) e0 = false))) -> enter_bad c h G rec_addr run_addr (Some e) code).
  { intros code H. right. right. exists r, d. auto. }
  destruct (N.eqb_spec (rd_state d) REALM_NEW) as [Es|Es]; [apply BAD; [discriminate|apply BR; auto]|].
  destruct (N.eqb_spec (rd_state d) REALM_SYSTEM_OFF) as [Es'|Es']; [apply BAD; [discriminate|apply BR; auto 10]|].
  assert (Act : rd_state d = REALM_ACTIVE).
  { destruct Rd as [Rd1 Rd2]. destruct (i_rd _ _ _ _ I _ Rd1) as (d0 & M0 & RO & _). assert (d0 = d) by congruence. subst d0.
    destruct RO as (_ & X & _). unfold REALM_NEW, REALM_ACTIVE, REALM_SYSTEM_OFF in *. clear -X Es Es'. lia. }
  rewrite Act. change (negb (REALM_ACTIVE =? REALM_ACTIVE)) with false. cbn iota.
  destruct (r_runnable r) eqn:Run; cbn [negb]; [|apply BAD; [discriminate|apply BR; auto 10]].
  destruct (r_psci_pending r) eqn:Psci; [apply BAD; [discriminate|apply BR; auto 10]|].
  destruct (gic_validate_state (h_gic h) e) eqn:Gv; cbn [negb]; [|apply BAD; [discriminate|apply BR; eauto 12]].
  apply wp_bind, wp_put_rec.
  set (r1 := set_gic r (gic_copy_state_from_rec_entry (h_gic h) (r_gic r) e)) in *.
  set (G2 := upd G1 rec_addr _).
  assert (HG2 : forall z, G2 z = upd G rec_addr (mkG REC 1 (CRec r1)) z).
  { intro z. unfold G2, upd, G1. rewrite upd_same. cbn [g_state g_ref]. destruct (N.eqb_spec z rec_addr); [reflexivity|]. apply upd_other. assumption. }
  clearbody G2.
  assert (LB : forall r' n G', ident r' = ident r -> (forall d, req_ok d (r_set_ripas r) -> req_ok d (r_set_ripas r')) -> n <= 1 ->
     (forall z, G' z = upd G rec_addr (mkG REC n (CRec r')) z) -> geff c gh G V (LRec rec_addr r r' n) gh G' V).
  { intros. apply rec_label; auto. }
  assert (TOUCH : entry_rec (h_gic h) r e = None ->
     wp (enter_stops (Some e)) (q <- rec_enter_out rec_addr RMI_ERROR_REC exit_zero true ;; Ret (EReturn (fst q) (snd q))) (mkS L1 S2 G2 V T) Q).
  { intros Hn. apply OUT; [|exists r1; rewrite HG2; apply upd_same|discriminate|].
    - intros z n. rewrite HG2. apply upd_other, n.
    - intros S' G' H1 H2. exists L1, S', G', [LRec rec_addr r r1 0]. split; [reflexivity|]. split; [exact FL|]. split; [exact H1|].
      split.
      + apply geffs_one, LB; auto; try lia. intro z. rewrite H2. unfold upd. rewrite !HG2, upd_same. cbn [g_mem].
        destruct (N.eqb_spec z rec_addr); [reflexivity|]. apply upd_other. assumption.
      + eapply en_touch; eauto. }
  pose proof (sea_some r1 e Hm) as Hsea.
  destruct (entry_rec (h_gic h) r e) as [r6|] eqn:En.
  2:{ unfold entry_rec in En. cbv zeta in En. fold r1 in En.
      destruct (complete_sea_insertion r1 e) as [[r2|]|] eqn:H2; [|apply TOUCH; reflexivity|congruence].
      destruct (complete_mmio_emulation r2 e) as [r3|] eqn:H3; [discriminate|].
      assert (E2 : r2 = r1).
      { apply sea_keeps in H2. apply H2. unfold complete_mmio_emulation in H3.
        destruct (negb (has (en_flags e) FLAG_EMUL_MMIO)); [discriminate|]. destruct (has (en_flags e) FLAG_INJECT_SEA); [discriminate|reflexivity]. }
      subst r2. apply wp_bind, wp_put_rec. apply OUT; [| |discriminate|].
      - intros z n. rewrite upd_other, HG2 by exact n. apply upd_other, n.
      - exists r1. rewrite upd_same, !HG2, upd_same. reflexivity.
      - intros S' G' H1 H4. exists L1, S', G', [LRec rec_addr r r1 0]. split; [reflexivity|]. split; [exact FL|]. split; [exact H1|].
        split.
        + apply geffs_one, LB; auto; try lia. intro z. rewrite H4. rewrite upd_same. unfold upd. cbn [g_mem].
          destruct (N.eqb_spec z rec_addr); [reflexivity|]. rewrite HG2. apply upd_other. assumption.
        + eapply en_touch; eauto. unfold entry_rec. cbv zeta. fold r1. rewrite H2, H3. reflexivity. }
  pose proof (entry_keeps _ _ _ _ En) as (K1 & K2 & K3 & K4 & K5 & K6 & K7 & K8 & K9).
  pose proof En as En'. unfold entry_rec in En'. cbv zeta in En'. fold r1 in En'.
  destruct (complete_sea_insertion r1 e) as [[r2|]|] eqn:H2; try discriminate.
  destruct (complete_mmio_emulation r2 e) as [r3|] eqn:H3; try discriminate.
  injection En' as En'. rewrite En'.
  assert (L0 : geff c gh G V (LRec rec_addr r r1 1) gh G2 V). { apply LB; auto. lia. }
  assert (I2 : Inv c gh G2 V) by (eapply geff_inv; eassumption).
  assert (R2 : is_rec G2 rec_addr r1) by (split; rewrite HG2, upd_same; reflexivity).
  assert (Rd2 : is_rd G2 (r_g_rd r1) d). { change (r_g_rd r1) with (r_g_rd r). destruct Rd as [X1 X2]. split; rewrite HG2, upd_other by exact nrd; assumption. }
  assert (O2 : rec_ok c d r1) by exact O.
  assert (HC2 : forall labs o, hc_out gh G2 (r_g_rd r1) (r_ctx r1) r6 e labs o -> hc_out gh G (r_g_rd r) (r_ctx r) r6 e labs o).
  { intros labs o [X|[(X & l & b & pa & g & f0 & X1 & X2 & X3 & X4 & X5)|X]]; [left; exact X| |right; right; exact X].
    right. left. split; [exact X|]. exists l, b, pa, g, f0. repeat (split; [assumption|]). split; [|exact X5].
    rewrite HG2, upd_other in X4; [exact X4|]. intros ->. destruct (i_dmap _ _ _ _ I _ _ _ X3) as (X6 & _). congruence. }
  assert (HGo : forall r7 l n, ident r7 = ident r6 -> r_set_ripas r7 = r_set_ripas r6 -> n <= 1 -> forall hl G3 G' r8, r8 = l ->
     ident l = ident r7 -> r_set_ripas l = r_set_ripas r7 -> geffs c gh G2 V hl gh G3 V -> G3 rec_addr = G2 rec_addr ->
     (forall z, G' z = upd G3 rec_addr (mkG REC n (CRec l)) z) ->
     geffs c gh G V (LRec rec_addr r r1 1 :: hl ++ [LRec rec_addr r1 l n]) gh G' V).
  { intros r7 l n Y1 Y2 Y3 hl G3 G' r8 _ Y4 Y5 Y6 Y7 Y8. eapply gs_cons; [exact L0|]. eapply rec_app; [exact Y6|exact (conj (eq_trans (f_equal g_state Y7) (proj1 R2)) (eq_trans (f_equal g_mem Y7) (proj2 R2)))| | |exact Y3|exact Y8].
    - rewrite Y4, Y1, K1. reflexivity.
    - intros d0 _ X. rewrite Y5, Y2. apply K7. exact X. }
  eapply wp_conseq; [apply (wp_enter_run c gh G2 V I2 L1 S2 T FL rec_addr r1 d R2)|intro X; exact X|].
  - rewrite HG2, upd_same. reflexivity.
  - exact HS2.
  - exact Rd2.
  - exact O2.
  - intros l X1 X2. exists r, d, e, r6, l. repeat (split; [first [reflexivity|assumption]|]). split; [apply HC2, X1|exact X2].
  - exact K1.
  - intro X. rewrite K2 in X. destruct (Hh X) as (X1 & X2 & X3 & _). rewrite (K9 X1 X2). exact X3.
  - cbn beta. intros o s' (L' & S' & G' & hl & -> & FL' & BS' & [(l & HC & Hl & -> & -> & HG')|(G3 & r7 & l & HC & GE & G3a & El & Ho)]).
    + exists L', S', G', [LRec rec_addr r r6 0]. split; [reflexivity|]. split; [exact FL'|]. split; [exact BS'|]. split.
      * apply geffs_one, LB; auto; try lia. intro z. rewrite HG'. unfold upd. destruct (N.eqb_spec z rec_addr); [reflexivity|]. rewrite HG2. apply upd_other. assumption.
      * eapply en_fault; eauto.
    + apply HC2 in HC. pose proof (hc_keeps _ _ _ _ _ _ _ _ HC) as (W1 & W2 & _).
      pose proof (start_keeps r7 e) as (W3 & W4 & _).
      pose proof (head_keeps tm (mkV (start_rec r7 e) exit_zero at_)) as (W5 & W6 & _). rewrite <- El in W5, W6. cbn [v_rec] in W5, W6.
      assert (W7 : ident (v_rec (fst l)) = ident r7) by congruence.
      assert (W8 : r_set_ripas (v_rec (fst l)) = r_set_ripas r7). { unfold pend in *. injection W6 as W61 _ _ _. rewrite W61. reflexivity. }
      destruct Ho as [(Hl & -> & HG')|(Hl & v' & Ev & -> & HG')].
      * exists L', S', G'. eexists. split; [reflexivity|]. split; [exact FL'|]. split; [exact BS'|]. split.
        -- eapply (HGo r7 (v_rec (fst l)) 1); eauto; lia.
        -- eapply en_run; eauto.
      * pose proof (end_keeps (h_gic h) fi (fst l) false) as (W9 & W10 & _). rewrite <- Ev in W9, W10.
        exists L', S', G'. eexists. split; [reflexivity|]. split; [exact FL'|]. split; [exact BS'|]. split.
        -- eapply (HGo r7 (v_rec v') 0); eauto; try lia; [congruence|]. unfold pend in W10. injection W10 as W101 _ _ _. congruence.
        -- eapply en_timer; eauto.
Qed.
Lemma wp_rec_enter : wp f6_enter (smc_rec_enter c h fi tm rec_addr run_addr enter at_) (mkS L S G V T) Q.
Proof.
  eapply wp_conseq; [exact wp_enter_stops| |auto].
  intros (r & d & e & r6 & l & _ & R & _ & En & _ & HC & Hl). exists r. split; [exact R|].
  pose proof (entry_keeps _ _ _ _ En) as (_ & K2 & _).
  destruct HC as [(_ & _ & X)|[(_ & ? & ? & ? & ? & ? & _ & _ & _ & _ & _ & X)|(H & _ & l0 & b & z & _ & _ & B & X)]]; [discriminate X|discriminate X|].
  split; [congruence|]. destruct (e_ripas z); try discriminate X; injection X as ->; lia.
Qed.
End RecEnter.

(* ------------------------------------------------------------------ *)
(** * One exit of a realm *)

(** No service of a realm changes a REC *)
Lemma exit_other : forall c h gh G V d ev v simd labs o G' a r, Inv c gh G V -> is_rec G a r -> is_rd G (r_g_rd (v_rec v)) d ->
  exit_out c h gh G d ev v simd labs o -> geffs c gh G V labs gh G' V -> G' a = G a.
Proof.
  intros c h gh G V d ev v simd labs o G' a r I R Rd H GE.
  assert (N : labs = [] -> G' a = G a). { intros ->. inversion GE; subst. auto. }
  destruct H as [| | | | |labs o _ _ H _]; auto.
  destruct H as [| | | |g f0 f at_ x (l & b & pa & LF & Eg & D)|i m H0 H1 H2 H3| | | | | | | ]; auto.
  - eapply hc_other; eauto. right. exists g, f. split; [congruence|reflexivity].
  - inversion GE as [|? ? ? ? ? ? ? ? ? ? ? G1e G2e]; subst. inversion G2e; subst.
    match goal with X : forall z, G' z = _ |- _ => rewrite X end.
    match type of G1e with geff _ _ _ _ ?l _ _ _ => remember l as lab eqn:El end. 
    assert (n : a <> r_g_rd (v_rec v)). { intros ->. destruct R as [R _], Rd as [Rd _]. congruence. }
    destruct G1e; try discriminate El. injection El as -> _ _. auto.
  - inversion GE as [|? ? ? ? ? ? ? ? ? ? ? G1e G2e]; subst. inversion G2e; subst.
    match goal with X : forall z, G' z = _ |- _ => rewrite X end.
    match type of G1e with geff _ _ _ _ ?l _ _ _ => remember l as lab eqn:El end. 
    assert (n : a <> r_g_rd (v_rec v)). { intros ->. destruct R as [R _], Rd as [Rd _]. congruence. }
    destruct G1e; try discriminate El. injection El as -> _ _. auto.
Qed.

Lemma ec_ldiff : forall esr, esr_ec (N.ldiff esr ISV_BIT) = esr_ec esr.
Proof.
  intro esr. unfold esr_ec. apply N.bits_inj. intro n. rewrite !N.land_spec, N.ldiff_spec.
  destruct (N.testbit EC_MASK n) eqn:E1; [|rewrite !andb_false_r; reflexivity].
  replace (N.testbit ISV_BIT n) with false; [rewrite !andb_true_r; reflexivity|].
  symmetry. change ISV_BIT with (2 ^ 24). apply N.pow2_bits_false. intros <-. discriminate.
Qed.

Lemma sync_keeps : forall h gh r x simd esr far hpfar r' x' simd' go,
  sync_out h gh r x simd esr far hpfar r' x' simd' go -> ident r' = ident r /\ pend r' = pend r /\
  (realm_mode (r_pstate r) -> realm_mode (r_pstate r')).
Proof.
  intros h gh r x simd esr far hpfar r' x' simd' go H.
  assert (UN : forall r', realm_inject_undef_abort r = Some r' -> ident r' = ident r /\ pend r' = pend r /\ (realm_mode (r_pstate r) -> realm_mode (r_pstate r'))).
  { intros r0 K. apply inject_undef_keeps in K. destruct K as (K1 & K2 & K3 & _). split; [exact K1|]. split; [exact K2|]. rewrite K3. intros _. apply mode_init. }
  assert (ID : forall r', inject_sync_idabort r esr far FSC_SEA = Some r' -> ident r' = ident r /\ pend r' = pend r /\ (realm_mode (r_pstate r) -> realm_mode (r_pstate r'))).
  { intros r0 K. apply inject_idabort_keeps in K. destruct K as (K1 & K2 & K3 & _). split; [exact K1|]. split; [exact K2|]. rewrite K3. intros _. apply mode_init. }
  destruct H; auto; try (destruct (_ : bool)); auto 8.
Qed.

(** What is known of the REC after an exit *)
Definition exit_good (d : rdesc) (r0 : recd) (o : rstate * bool) : Prop :=
  ident (v_rec (fst (fst o))) = ident r0 /\ req_ok d (r_set_ripas (v_rec (fst (fst o)))) /\
  realm_mode (r_pstate (v_rec (fst (fst o)))) /\ att_ok (v_att (fst (fst o))) /\
  (snd o = true -> no_request (v_rec (fst (fst o)))) /\ pend_ok (v_rec (fst (fst o))).
Lemma exit_keeps : forall c h gh G d ev v simd labs o, exit_out c h gh G d ev v simd labs o ->
  realm_par_size d = 2 ^ (ipa_bits (rd_ctx d) - 1) -> r_ctx (v_rec v) = rd_ctx d -> no_request (v_rec v) -> req_ok d (r_set_ripas (v_rec v)) -> realm_mode (r_pstate (v_rec v)) -> att_ok (v_att v) ->
  exit_good d (v_rec v) o.
Proof.
  intros c h gh G d ev v simd labs o H Ps Ec NR RO M At.
  assert (NP : forall r, pend r = pend (v_rec v) -> no_request r).
  { intros r E. unfold pend in E. injection E as E1 E2 E3 E4. destruct NR as (N1 & N2 & N3 & N4). unfold no_request. rewrite E1, E2, E3, E4. auto. }
  assert (NQ : forall r, pend r = pend (v_rec v) -> realm_mode (r_pstate r) -> pend_ok r).
  { intros r E Hm. apply NP in E. destruct E as (E1 & E2 & _). split; [exact Hm|]. rewrite E1, E2. split; intro; discriminate. }
  assert (RQ : forall r, pend r = pend (v_rec v) -> req_ok d (r_set_ripas r)).
  { intros r E. unfold pend in E. injection E as E1 _ _ _. rewrite E1. exact RO. }
  assert (ALL : forall r x a s (go : bool), ident r = ident (v_rec v) -> pend r = pend (v_rec v) -> realm_mode (r_pstate r) -> att_ok a ->
     forall o : rstate * bool, o = (mkV r x a, s, go) -> exit_good d (v_rec v) o).
  { intros r x a s go H1 H2 H3 H4 o0 ->. unfold exit_good. cbn [fst snd v_rec v_att]. do 5 (split; [auto|]); auto. }
  destruct v as [r0 x0 a0]. cbn [v_rec v_exit v_att] in *.
  destruct H as [| | |r' He Hr|r' x' simd' go Hx He Hs|labs o Hx He Hs].
  - cbn [v_set_exit v_exit v_rec v_att]. eapply ALL; [| | | |reflexivity]; auto.
  - eapply ALL; [| | | |reflexivity]; auto.
  - eapply ALL; [| | | |reflexivity]; auto.
  - eapply ALL; [| | | |reflexivity]; auto; subst r'; destruct (_ || _); cbn [v_rec]; auto.
  - apply sync_keeps in Hs. cbn [v_rec] in Hs. destruct Hs as (K1 & K2 & K3). destruct go.
    + eapply ALL; [exact K1|exact K2|auto|exact At|reflexivity].
    + unfold keep_last, v_set_rec. cbn [v_rec v_exit v_att]. eapply ALL; [| | | |reflexivity]; auto.
  - set (v0 := v_set_exit (mkV r0 x0 a0) (ex_set_reason x0 RMI_EXIT_SYNC)) in *. cbn [v_rec v_exit v_att] in *. fold v0 in Hs |- *.
    assert (RES : forall o', (let v1 := fst o' in ident (v_rec v1) = ident r0 /\ pend (v_rec v1) = pend r0 /\ r_pstate (v_rec v1) = r_pstate r0 /\ att_ok (v_att v1)) ->
      exit_good d r0 ((if snd (rsi_result o') then fst (rsi_result o') else keep_last ev (fst (rsi_result o'))), simd, snd (rsi_result o'))).
    { intros [[r1 x1 a1] s] (K1 & K2 & K3 & K4). cbn [fst snd v_rec v_att] in *. unfold rsi_result. cbv zeta. cbn [fst snd v_rec v_exit v_att].
      rewrite <- K3 in M.
      destruct (ra_update s), (ra_abort s); cbn [fst snd]; (destruct (ra_exit s); cbn [negb]; unfold keep_last, v_set_rec; cbn [v_rec v_exit v_att];
        (eapply ALL; [| | | |reflexivity]; [exact K1|exact K2|exact M|exact K4])). }
    destruct NR as (N1 & N2 & N3 & N4).
    assert (PK : forall r, (r_host_call r = true -> sr_base (r_set_ripas r) = sr_top (r_set_ripas r) /\ esr_ec (r_last_esr r) = EC_SMC /\
         r_regs r 1 < 2 ^ (ipa_bits (r_ctx r) - 1) /\ r_regs r 1 mod 256 = 0) ->
       (r_psci_pending r = true -> In (u32 (r_regs r 0)) [SMC32_PSCI_CPU_ON; SMC64_PSCI_CPU_ON; SMC32_PSCI_AFFINITY_INFO; SMC64_PSCI_AFFINITY_INFO]) ->
       realm_mode (r_pstate r) -> pend_ok r) by (intros; split; auto).
    assert (KE : forall v, esr_ec (r_last_esr (v_rec (keep_last ev v))) = EC_SMC).
    { intro v. unfold keep_last. cbn [v_rec v_set_rec]. change (r_last_esr (set_last ?a ?b _ _)) with b.
      destruct (has _ _); [exact He|]. rewrite ec_ldiff. exact He. }
    destruct Hs as [x Hx0|Hi|a x Ha|a len Ha|g f f' a x Hp Hpp Ha|i m H1 H2 H3|base top v1 v2 H0 H1 H2 H3 H4 H5 H6 H7 H8 H9
                   |f g H0 H1 H2 H3 H4|H1 H2 H3| | | |a level Ha Hl Hf].
    + apply RES. cbv zeta. auto.
    + apply RES. cbv zeta. repeat split; auto.
    + apply RES. cbv zeta. cbn [fst v_set_att v_rec v_att]. auto.
    + apply RES. cbv zeta. cbn [fst v_rec v_att]. auto.
    + apply RES. cbv zeta. cbn [fst v_set_att v_rec v_att]. auto.
    + apply RES. cbv zeta. auto.
    + (* a request *)
      set (q := rsi_result _).
      assert (Eq : snd q = false) by reflexivity. rewrite Eq. unfold exit_good. cbn [fst snd].
      split; [reflexivity|]. split.
      { change (r_set_ripas (v_rec (keep_last ev (fst q)))) with (mkReq base top base v1 v2 (sr_response (r_set_ripas r0))).
        unfold req_ok. cbn [sr_base sr_top sr_addr]. rewrite Ps. split; [|split; [exact H1|split; [exact H2|right; lia]]].
        exact H4. }
      split; [exact M|]. split; [exact At|]. split; [discriminate|].
      apply PK; [| |exact M]; intro X; [change (r_host_call r0 = true) in X|change (r_psci_pending r0 = true) in X]; congruence.
    + (* a host call *)
      set (q := rsi_result _).
      assert (Eq : snd q = false) by reflexivity. rewrite Eq. unfold exit_good. cbn [fst snd].
      split; [reflexivity|]. split; [exact RO|]. split; [exact M|]. split; [exact At|]. split; [discriminate|].
      apply PK; [| |exact M]; intro X; [|change (r_psci_pending r0 = true) in X; congruence].
      split; [exact N3|]. split; [apply KE|]. change (r_ctx (v_rec (keep_last ev (fst q)))) with (r_ctx r0). rewrite Ec. split; [exact H2|exact H1].
    + (* PSCI *)
      set (q := rsi_result _).
      assert (Eq : snd q = false) by reflexivity. rewrite Eq. unfold exit_good. cbn [fst snd].
      split; [reflexivity|]. split; [exact RO|]. split; [exact M|]. split; [exact At|]. split; [discriminate|].
      apply PK; [| |exact M]; intro X; [change (r_host_call r0 = true) in X; congruence|]. exact H1.
    + apply RES. cbv zeta. auto.
    + (* CPU_OFF *)
      set (q := rsi_result _).
      assert (Eq : snd q = false) by reflexivity. rewrite Eq. unfold exit_good. cbn [fst snd].
      split; [reflexivity|]. split; [exact RO|]. split; [exact M|]. split; [exact At|]. split; [discriminate|].
      apply PK; [| |exact M]; intro X; [change (r_host_call r0 = true) in X|change (r_psci_pending r0 = true) in X]; congruence.
    + apply RES. cbv zeta. auto.
    + apply RES. cbv zeta. cbn [fst v_set_att v_rec v_att]. auto.
Qed.

Inductive run_out (c : cfg) (h : hw) (gh : ghost) (G : N -> granule) (d : rdesc) (ev : event) (fi : fin) (tm : timers)
    (a : N) (v : vcpu) (simd : bool) : list label -> enter_out * att * bool -> Prop :=
| uo_go : forall labs v1 simd' l, exit_out c h gh G d ev v simd labs (v1, simd', true) -> l = loop_head tm v1 -> snd l = true ->
    run_out c h gh G d ev fi tm a v simd (labs ++ [LRec a (v_rec v) (v_rec (fst l)) 1]) (ERun (v_exit (fst l)), v_att v1, simd')
| uo_timer : forall labs v1 simd' l v', exit_out c h gh G d ev v simd labs (v1, simd', true) -> l = loop_head tm v1 -> snd l = false ->
    v' = run_end (h_gic h) fi (fst l, simd') ->
    run_out c h gh G d ev fi tm a v simd (labs ++ [LRec a (v_rec v) (v_rec v') 0]) (answer (fi_wok fi) (v_exit v'), v_att v1, false)
| uo_exit : forall labs v1 simd' v', exit_out c h gh G d ev v simd labs (v1, simd', false) ->
    v' = run_end (h_gic h) fi (v1, simd') ->
    run_out c h gh G d ev fi tm a v simd (labs ++ [LRec a (v_rec v) (v_rec v') 0]) (answer (fi_wok fi) (v_exit v'), v_att v1, false).

Section RunExit.
Variables (c : cfg) (gh : ghost) (G : N -> granule) (V : N -> bool).
Hypothesis I : Inv c gh G V.
Variables (L S : N -> bool) (T : list tlbe).
Hypothesis HL : free L.
Hypothesis HS : forall z, S z = busy z.
Variables (h : hw) (ev : event) (fi : fin) (tm : timers) (a : N) (r : recd) (d : rdesc) (x : rec_exit) (at_ : att) (simd : bool).
Hypothesis R : is_rec G a r.
Hypothesis Rf : g_ref (G a) = 1.
Hypothesis Rd : is_rd G (r_g_rd r) d.
Hypothesis O : rec_ok c d r.
Hypothesis NR : no_request r.
Hypothesis Hm : realm_mode (r_pstate r).
Hypothesis Hc : cca_ok (ev_att ev).
Hypothesis Ha : att_ok at_.

Lemma wp_run_exit : wp (~ exit_ok ev r simd) (rec_run_exit c h ev fi tm a x at_ simd) (mkS L S G V T) (fun o s' =>
  exists L' S' G' labs, s' = mkS L' S' G' V T /\ free L' /\
    (forall z, S' z = match fst (fst o) with ERun _ => busy z | EReturn _ _ => false end) /\
    geffs c gh G V labs gh G' V /\ run_out c h gh G d ev fi tm a (mkV r x at_) simd labs o).
Proof.
  unfold rec_run_exit. pose proof R as [St M]. apply wp_bind. eapply wp_get_rec; [rewrite M; reflexivity|]. apply wp_bind.
  assert (Ectx : r_ctx r = rd_ctx d) by apply O. assert (La : length (r_aux r) = 16%nat) by apply O.
  assert (RO : req_ok d (r_set_ripas r)) by apply O.
  eapply wp_conseq; [apply (wp_realm_exit c gh G V I L S T HL (busy_ok S HS) (mkV r x at_) d h ev simd Rd Ectx Hc Ha)|intro X; exact X|].
  cbn [v_rec]. intros [[v1 simd'] go] s' (L1 & S1 & G1 & labs & -> & HL1 & HS1 & GE & EO). cbn [fst snd].
  pose proof (exit_other _ _ _ _ _ _ _ (mkV r x at_) _ _ _ _ a r I R Rd EO GE) as Ga.
  destruct (exit_keeps _ _ _ _ _ _ _ _ _ _ EO (par_size _ _ _ _ I _ _ Rd) Ectx NR RO Hm Ha) as (K1 & K2 & K3 & K4 & K5 & K6). cbn [fst snd v_rec v_att] in K1, K2, K3, K4, K5, K6.
  assert (FL1 : free L1) by (intro z; rewrite HL1; apply HL). assert (BS1 : forall z, S1 z = busy z) by (intro z; rewrite HS1; apply HS).
  assert (R1 : is_rec G1 a r) by (split; rewrite Ga; assumption).
  assert (REQ : forall d' q, rd_ctx d' = rd_ctx d -> req_ok d q -> req_ok d' q).
  { intros d' q E0 X. unfold req_ok, realm_par_size, realm_ipa_size in *. rewrite E0. exact X. }
  assert (APP : forall r' n G', ident r' = ident (v_rec v1) -> r_set_ripas r' = r_set_ripas (v_rec v1) -> n <= 1 ->
     (forall z, G' z = upd G1 a (mkG REC n (CRec r')) z) -> geffs c gh G V (labs ++ [LRec a r r' n]) gh G' V).
  { intros r' n G' H1 H2 H3 H4. eapply rec_app; eauto; [congruence|]. intros d' E0 _. rewrite H2. apply REQ; [congruence|exact K2]. }
  assert (FIN : forall v2 (s2 : bool) (W : enter_out * att * bool -> state -> Prop),
     v_att v2 = v_att v1 -> ident (v_rec v2) = ident (v_rec v1) -> r_set_ripas (v_rec v2) = r_set_ripas (v_rec v1) ->
     (forall S' G', free S' -> geffs c gh G V (labs ++ [LRec a r (v_rec (run_end (h_gic h) fi (v2, s2))) 0]) gh G' V ->
        W (answer (fi_wok fi) (v_exit (run_end (h_gic h) fi (v2, s2))), v_att v1, false) (mkS L1 S' G' V T)) ->
     wp (~ exit_ok ev r simd) (put_rec a (v_rec v2) ;;;
         q <- rec_run_finish (h_gic h) fi a (v_exit v2) (v_att v1) s2 ;; Ret (EReturn (fst q) (snd q), v_att v1, false)) (mkS L1 S1 G1 V T) W).
  { intros v2 s2 W H1 H2 H3 HW. apply wp_bind, wp_put_rec. apply wp_bind, (wp_finish _ V _ _ _ _ (v_rec v2)).
    - split; rewrite upd_same, ?Ga; [exact St|reflexivity].
    - rewrite upd_same, Ga. exact Rf.
    - apply ident_parts in H2. apply ident_parts in K1. destruct H2 as (-> & _), K1 as (-> & _). exact La.
    - exact BS1.
    - intros S' G' FS HG. assert (Ev : mkV (v_rec v2) (v_exit v2) (v_att v1) = v2) by (destruct v2; cbn in *; congruence).
      rewrite Ev in *. apply wp_ret.
      assert (X : (EReturn (fst (if fi_wok fi then (RMI_SUCCESS, Some (v_exit (run_end (h_gic h) fi (v2, s2)))) else (RMI_ERROR_INPUT, None)))
                 (snd (if fi_wok fi then (RMI_SUCCESS, Some (v_exit (run_end (h_gic h) fi (v2, s2)))) else (RMI_ERROR_INPUT, None)))) =
              answer (fi_wok fi) (v_exit (run_end (h_gic h) fi (v2, s2)))) by (unfold answer; destruct (fi_wok fi); reflexivity).
      rewrite X. apply HW; [exact FS|]. pose proof (end_keeps (h_gic h) fi v2 s2) as (Y1 & Y2 & _).
      apply APP; [congruence| |lia|].
      + transitivity (r_set_ripas (v_rec v2)); [|exact H3]. exact (f_equal (fun p => fst (fst (fst p))) Y2).
      + intro z. rewrite HG. unfold upd. destruct (z =? a); reflexivity. }
  assert (RF : forall wok x0 z, match answer wok x0 with ERun _ => busy z | EReturn _ _ => false end = false) by (intros [] ? ?; reflexivity).
  destruct go.
  - set (l := loop_head tm v1). cbv zeta. fold l. pose proof (head_keeps tm v1) as (Y1 & Y2 & _ & _ & _ & Y3). fold l in Y1, Y2, Y3.
    assert (Y4 : r_set_ripas (v_rec (fst l)) = r_set_ripas (v_rec v1)) by (unfold pend in Y2; injection Y2 as Y2 _ _ _; exact Y2).
    destruct (snd l) eqn:Hl.
    + apply wp_bind, wp_put_rec, wp_ret. do 4 eexists. split; [reflexivity|]. split; [exact FL1|]. split; [exact BS1|]. split.
      * apply APP with (n := 1); [exact Y1|exact Y4|lia|]. intro z. rewrite Ga, St, Rf. reflexivity.
      * eapply uo_go; eauto.
    + apply FIN; [exact Y3|exact Y1|exact Y4|]. intros S' G' FS GE'. exists L1, S', G'. eexists. split; [reflexivity|]. split; [exact FL1|].
      split; [intro z; cbn [fst snd]; rewrite RF; apply FS|]. split; [exact GE'|]. eapply uo_timer; eauto.
  - apply FIN; [reflexivity..|]. intros S' G' FS GE'. exists L1, S', G'. eexists. split; [reflexivity|]. split; [exact FL1|].
    split; [intro z; cbn [fst snd]; rewrite RF; apply FS|]. split; [exact GE'|]. eapply uo_exit; eauto.
Qed.
End RunExit.
