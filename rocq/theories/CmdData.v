(** DATA_CREATE, DATA_CREATE_UNKNOWN and DATA_DESTROY *)
From Coq Require Import NArith ZArith List Bool Lia ZifyBool ZifyN.
From Verif Require Import Bits S2tte S2tteFacts State Granule Wp RecFields Measure RmiGranule RmiRtt RmiRealm Psci RmiRec
  Inv InvTree InvStep InvStep2 InvStep3 Effects CmdLib CmdRtt CmdFold CmdRtt2.
Import ListNotations.
Local Open Scope N_scope.

(** The entry that assigns [pa] without changing the RIPAS, and the one left
    when the granule is taken away *)
Definition assign_e (e : entry) (pa : N) : entry :=
  match e with
  | EUnEmpty => EAsEmpty pa
  | EUnRam => EAsRam pa
  | EUnDestr => EAsDestr pa
  | _ => e
  end.
Definition unassign_e (e : entry) : entry :=
  match e with
  | EAsEmpty _ => EUnEmpty
  | EAsRam _ | EAsDestr _ => EUnDestr
  | _ => e
  end.
Definition asg_e (e : entry) : bool := match asg e with Some _ => true | None => false end.
Definition un_e (e : entry) : bool := match e with EUnEmpty | EUnRam | EUnDestr => true | _ => false end.

Lemma set_meas_le : forall c d k m, rd_ok c d -> rd_le c d (set_meas d k m).
Proof. intros c d k m O. split; [reflexivity|]. split; [exact O|]. split; [intros rc H; exact H|]. split; [reflexivity|reflexivity]. Qed.

Section Cmd.
Variables (c : cfg) (gh : ghost) (G : N -> granule) (V : N -> bool).
Hypothesis C : cfg_ok c.
Hypothesis I : Inv c gh G V.
Variables (L S : N -> bool) (T : list tlbe).
Hypothesis HL : free L.
Hypothesis HS : free S.

Lemma wp_validate_unknown : forall E addr rd d s (Q : _ -> state -> Prop), is_rd G rd d ->
  (addr < 2 ^ (ipa_bits (rd_ctx d) - 1) -> addr mod 4096 = 0 -> Q RMI_SUCCESS s) ->
  (~ (addr < 2 ^ (ipa_bits (rd_ctx d) - 1) /\ addr mod 4096 = 0) -> Q RMI_ERROR_INPUT s) ->
  wp E (validate_data_create_unknown addr d) s Q.
Proof.
  intros E addr rd d s Q R H1 H2. unfold validate_data_create_unknown.
  pose proof (in_par_iff _ _ _ _ I rd d addr R) as IP. pose proof (inv_ctx _ _ _ _ I _ _ R) as X. pose proof (ctx_sl _ X).
  destruct (addr_in_par d addr); cbn [negb]; [|apply wp_ret, H2; intros [K _]; apply IP in K; discriminate K].
  apply wp_bind. eapply (wp_validate_map _ _ _ _ I); [exact R|change S2TT_PAGE_LEVEL with 3%Z; lia|].
  intros b Hb. apply wp_ret. destruct b; cbn [negb].
  2:{ apply H2. intros [K1 K2]. assert (false = true); [|discriminate]. apply Hb. split; [|exact K2].
      eapply N.lt_le_trans; [exact K1|apply pow2_le; lia]. }
  apply H1; [apply IP; reflexivity|]. apply Hb. reflexivity.
Qed.

Lemma par_ipa : forall rd d addr, is_rd G rd d -> addr < 2 ^ (ipa_bits (rd_ctx d) - 1) -> addr < 2 ^ ipa_bits (rd_ctx d).
Proof. intros rd d addr R H. eapply N.lt_le_trans; [exact H|apply pow2_le; lia]. Qed.

Lemma rd_state_ok : forall rd d, is_rd G rd d -> rd_ok c d.
Proof.
  intros rd d [Sr M]. destruct (i_rd _ _ _ _ I _ Sr) as (d0 & M0 & O & _). rewrite M in M0. injection M0 as <-. exact O.
Qed.

(** Entries at the page level inside the PAR *)
Lemma at_par : forall x rd d n a i f e, is_rd G rd d -> x = rd_ctx d -> at_entry gh G x rd 3 n a i f e ->
  n < parn x 3 -> match e with EUnNs | EAsNs _ _ => False | _ => True end.
Proof.
  intros x rd d n a i f e R -> A Hn. pose proof (ae_ok _ _ _ _ _ _ _ _ _ _ A) as [_ O]. destruct e; try exact Logic.I; lia.
Qed.

(** The arguments of the two commands that create data *)
Definition data_args (rd data addr : N) : Prop := exists d, is_rd G rd d /\ g_state (G data) = DELEGATED /\
  addr < 2 ^ (ipa_bits (rd_ctx d) - 1) /\ addr mod 4096 = 0 /\ (enable_lpa2 (rd_ctx d) = true \/ data < 2 ^ 48).
Definition data_fail (rd data addr : N) (src : option (option (N -> N) * N)) (r : N) : Prop :=
  let new := match src with Some _ => true | None => false end in
  (r = RMI_ERROR_INPUT /\ (~ data_args rd data addr \/ exists fl, src = Some (None, fl))) \/ (new = true /\ r = RMI_ERROR_REALM /\ exists d, is_rd G rd d /\ rd_state d <> REALM_NEW) \/
  walk_fail gh G rd addr 3 un_e r.

Lemma wp_data_create_gen : forall rd data addr src,
  let new := match src with Some _ => true | None => false end in
  wp False (data_create c rd data addr src) (mkS L S G V T) (fun r s' =>
    cmd_post c gh G V T r (data_fail rd data addr src r)
      (fun gh' labs inv => inv = [] /\ exists d e, is_rd G rd d /\ (new = true -> rd_state d = REALM_NEW) /\
         addr < 2 ^ (ipa_bits (rd_ctx d) - 1) /\ addr mod 4096 = 0 /\ un_e e = true /\
         match src with
         | Some (m, flags) => exists f, m = Some f /\
             labs = [LRd rd d (set_meas d RIM_MEASUREMENT_SLOT
                       (measurement_data_granule_measure c (rd_meas d RIM_MEASUREMENT_SLOT) (rd_algorithm d) f addr flags));
                     LAssign rd (addr / 4096) e (EAsRam data) data f]
         | None => labs = [LAssign rd (addr / 4096) e (assign_e e data) data (fun _ => 0)]
         end) s').
Proof.
  intros rd data addr src new. unfold data_create.
  apply wp_bind, wp_find_lock_two; [assumption|apply (inv_uok _ _ _ _ I)| |].
  2:{ intros L' HL' K. apply wp_ret. apply post_fail; try assumption; try discriminate; try reflexivity; [lk|].
      left. split; [reflexivity|]. left. intros (d & (S1 & _) & S2 & _).
      pose proof (i_gran _ _ _ _ I data ltac:(rewrite S2; discriminate)). pose proof (i_gran _ _ _ _ I rd ltac:(rewrite S1; discriminate)).
      destruct K as [->|[K|[K|[K|K]]]]; congruence. }
  intros L1 HL1 ne F1 F2 Sd Sr. cbn [negb].
  apply wp_bind, wp_map_slot; [side|].
  destruct (rd_of_state _ _ _ _ I rd Sr) as (d & R & Ar).
  apply wp_bind. eapply wp_get_rd; [exact Ar|].
  pose proof (i_del _ _ _ _ I data Sd) as Gd.
  match goal with |- wp _ _ _ ?q => set (Q := q) end.
  (* the end of the command when it fails *)
  assert (END : forall code L' S' G', code <> RMI_SUCCESS -> (forall z, L' z = L1 z) -> (forall z, S' z = upd S SLOT_RD true z) ->
     (forall z, G' z = G z) -> data_fail rd data addr src code ->
     wp False (unmap_slot SLOT_RD ;;; granule_unlock rd ;;; granule_unlock_transition data (snd (code, DELEGATED)) ;;; Ret (fst (code, DELEGATED)))
       (mkS L' S' G' V T) Q).
  { intros code L' S' G' nz HL' HS' HG' HF. cbn [fst snd]. apply wp_bind, wp_unmap_slot; [side|].
    apply wp_bind, wp_granule_unlock; [side|rewrite HG'; apply (inv_uok _ _ _ _ I)|].
    apply wp_bind, wp_unlock_transition; [side|rewrite HG', Gd; reflexivity|]. apply wp_ret.
    apply post_fail; try assumption; try reflexivity; try lk.
    intro z. destruct (N.eq_dec z data) as [->|]; updsimp; rewrite ?HG'; [rewrite Gd; reflexivity|reflexivity]. }
  assert (VAL : forall code, code <> RMI_SUCCESS -> data_fail rd data addr src code ->
     wp False (out <- Ret (code, DELEGATED) ;; unmap_slot SLOT_RD ;;; granule_unlock rd ;;; granule_unlock_transition data (snd out) ;;; Ret (fst out))
       (mkS L1 (upd S SLOT_RD true) G V T) Q).
  { intros code nz HF. apply wp_bind, wp_ret. apply END; try assumption; reflexivity. }
  assert (MAIN : (new = true -> rd_state d = REALM_NEW) -> addr < 2 ^ (ipa_bits (rd_ctx d) - 1) -> addr mod 4096 = 0 ->
    wp False (
    out <-
      (if negb (enable_lpa2 (rd_ctx d)) && (2 ^ S2TT_MAX_PA_BITS <=? data) then Ret (RMI_ERROR_INPUT, DELEGATED)
       else
         granule_lock (g_rtt (rd_ctx d)) RTT ;;;
         wi <- s2tt_walk_lock_unlock c (rd_ctx d) addr S2TT_PAGE_LEVEL ;;
         let llt := w_llt wi in
         out <-
           (if negb (w_level wi =? S2TT_PAGE_LEVEL)%Z then
              Ret (pack_return_code RMI_ERROR_RTT (w_level wi), DELEGATED)
            else
              map_slot SLOT_RTT ;;;
              w <- rd_word llt (w_index wi) ;;
              out <-
                (if negb (s2tte_is_unassigned w) then
                   Ret (pack_return_code RMI_ERROR_RTT S2TT_PAGE_LEVEL, DELEGATED)
                 else
                   nw <-
                     (match src with
                      | Some (d0, flags) =>
                          map_slot SLOT_DELEGATED ;;;
                          map_slot SLOT_NS ;;; unmap_slot SLOT_NS ;;;
                          (match d0 with
                           | None =>
                               granule_memzero_mapped data ;;;
                               unmap_slot SLOT_DELEGATED ;;;
                               Ret None
                           | Some d0 =>
                               wr_mem data (CW d0) ;;;
                               put_rd rd
                                 (set_meas d RIM_MEASUREMENT_SLOT
                                    (measurement_data_granule_measure c (rd_meas d RIM_MEASUREMENT_SLOT)
                                       (rd_algorithm d) d0 addr flags)) ;;;
                               unmap_slot SLOT_DELEGATED ;;;
                               assert_ (create_assigned_ok (rd_ctx d) data S2TT_PAGE_LEVEL) ;;;
                               Ret (Some (s2tte_create_assigned_ram (enable_lpa2 (rd_ctx d)) data S2TT_PAGE_LEVEL))
                           end)
                      | None =>
                          assert_ (create_assigned_ok (rd_ctx d) data S2TT_PAGE_LEVEL &&
                                   (EXTRACT 2 5 (N.land w S2TTE_INVALID_RIPAS_MASK) <=? 2)) ;;;
                          Ret (Some (s2tte_create_assigned_unchanged (enable_lpa2 (rd_ctx d)) w data S2TT_PAGE_LEVEL))
                      end) ;;
                   match nw with
                   | None => Ret (RMI_ERROR_INPUT, DELEGATED)
                   | Some nw =>
                       wr_word llt (w_index wi) nw ;;;
                       atomic_granule_get llt ;;;
                       Ret (RMI_SUCCESS, DATA)
                   end) ;;
              unmap_slot SLOT_RTT ;;;
              Ret out) ;;
         granule_unlock llt ;;;
         Ret out) ;;
    unmap_slot SLOT_RD ;;;
    granule_unlock rd ;;;
    granule_unlock_transition data (snd out) ;;;
    Ret (fst out)) (mkS L1 (upd S SLOT_RD true) G V T) Q).
  { intros NEW Hp Hal. pose proof (par_ipa rd d addr R Hp) as Ha.
    destruct (negb (enable_lpa2 (rd_ctx d)) && (2 ^ S2TT_MAX_PA_BITS <=? data)) eqn:B48.
    { apply VAL; [discriminate|]. left. split; [reflexivity|]. left. eapply (bad_rd G); [exact R|]. intros (_ & _ & _ & K).
      change S2TT_MAX_PA_BITS with 48 in B48. destruct K as [K|K]; [rewrite K in B48; discriminate B48|]. lia. }
    pose proof (gran_ok c C (rd_ctx d) data F1 B48) as Pd.
    pose proof (inv_ctx _ _ _ _ I _ _ R) as X. pose proof (ctx_sl _ X) as SL.
    apply wp_bind. apply (wp_lock_walk_keep _ _ _ _ I _ _ rd d); try assumption; try (change S2TT_PAGE_LEVEL with 3%Z; lia); try side.
    { intros a Sa. rewrite HL1. unfold upd.
      destruct (N.eqb_spec a rd); [congruence|]. destruct (N.eqb_spec a data); [congruence|apply HL]. }
    change S2TT_PAGE_LEVEL with 3%Z.
    intros wi L2 S2 HL2 HS2 W. cbv zeta.
    destruct (walk_at _ _ _ _ I _ _ _ _ _ R W) as (f & e & A & Hwl & NT).
    set (x := rd_ctx d) in *. set (llt := w_llt wi) in *. set (i := w_index wi) in *.
    pose proof (ae_st _ _ _ _ _ _ _ _ _ _ A) as Sl.
    assert (n1 : llt <> rd) by congruence. assert (n2 : llt <> data) by congruence.
    apply wp_bind. destruct (Z.eqb_spec (w_level wi) 3) as [El|]; cbn [negb].
    2:{ apply wp_ret. apply wp_bind, wp_granule_unlock; [side|apply (inv_uok _ _ _ _ I)|]. apply wp_ret.
        apply END; try apply pack_nonzero; try reflexivity; try lk. right. right. exists d, wi. repeat (split; [first [assumption|reflexivity]|]). contradiction. }
    rewrite El in A.
    pose proof (ae_valid _ _ _ _ _ _ _ _ _ _ A) as VE. pose proof (ae_mem _ _ _ _ _ _ _ _ _ _ A) as Ml.
    pose proof (ae_f _ _ _ _ _ _ _ _ _ _ A) as Hf. pose proof (ae_lt _ _ _ _ _ _ _ _ _ _ A) as Hi.
    assert (Hn : addr / ms 3 < parn x 3) by (apply num_parn; [assumption|lia|assumption]).
    pose proof (at_par x rd d _ _ _ _ _ R eq_refl A Hn) as NNS.
    apply wp_bind, wp_map_slot; [side|].
    apply wp_bind. eapply wp_rd_word; [exact Ml|]. rewrite Hf, (is_unassigned_enc _ _ _ VE).
    apply wp_bind.
    assert (Dec : un_e e = true \/ (un_e e = false /\ match e with EUnEmpty | EUnRam | EUnDestr | EUnNs => true | _ => false end = false)).
    { destruct e; cbn in *; auto; contradiction. }
    destruct Dec as [Un|(Un & ->)].
    2:{ cbn [negb]. apply wp_ret. apply wp_bind, wp_unmap_slot; [side|]. apply wp_ret.
        apply wp_bind, wp_granule_unlock; [side|apply (inv_uok _ _ _ _ I)|]. apply wp_ret.
        apply END; try apply pack_nonzero; try reflexivity; try lk. right. right. exists d, wi. rewrite El. repeat (split; [first [assumption|reflexivity]|]).
        intros _. fold llt i. rewrite <- (ae_e _ _ _ _ _ _ _ _ _ _ A). exact Un. }
    assert (match e with EUnEmpty | EUnRam | EUnDestr | EUnNs => true | _ => false end = true) as ->
      by (destruct e; cbn in Un |- *; congruence). cbn [negb].
    assert (AOK : create_assigned_ok x data 3 = true).
    { unfold create_assigned_ok. assert (s2tte_is_addr_lvl_aligned (enable_lpa2 x) data 3 = true) as -> by (apply addr_lvl_aligned_iff; [lia|exact Pd]). reflexivity. }
    assert (Asg0 : asg e = None /\ is_table_e e = false) by (destruct e; cbn in Un; try discriminate; split; reflexivity).
    destruct Asg0 as [Asg0 Tab0].
    assert (LT : g_ref (G llt) < 512).
    { apply (at_ref_lt _ _ _ _ I x rd d _ _ _ _ _ _ R eq_refl A). destruct e; cbn in Un; try discriminate; reflexivity. }
    assert (OK : forall e' w G1 L' S' fd,
      asg e' = Some data -> valid_entry (enable_lpa2 x) 3 e' -> w = enc (enable_lpa2 x) 3 e' ->
      G1 llt = mkG RTT (g_ref (G llt)) (CW f) -> G1 data = mkG DELEGATED 0 (CW fd) -> g_state (G1 rd) = RD -> uok (G1 rd) ->
      (forall z, L' z = L2 z) -> (forall z, S' z = upd S2 SLOT_RTT true z) ->
      (forall G', G' llt = mkG RTT (g_ref (G llt) + 1) (CW (upd f i w)) -> G' data = mkG DATA 0 (CW fd) ->
         (forall z, z <> llt -> z <> data -> G' z = G1 z) ->
         exists labs gh', geffs c gh G V labs gh' G' V /\
          (exists d0 e0, is_rd G rd d0 /\ (new = true -> rd_state d0 = REALM_NEW) /\
           addr < 2 ^ (ipa_bits (rd_ctx d0) - 1) /\ addr mod 4096 = 0 /\ un_e e0 = true /\
           match src with
           | Some (m, flags) => exists f, m = Some f /\
             labs = [LRd rd d0 (set_meas d0 RIM_MEASUREMENT_SLOT
                       (measurement_data_granule_measure c (rd_meas d0 RIM_MEASUREMENT_SLOT) (rd_algorithm d0) f addr flags));
                     LAssign rd (addr / 4096) e0 (EAsRam data) data f]
           | None => labs = [LAssign rd (addr / 4096) e0 (assign_e e0 data) data (fun _ => 0)]
           end)) ->
      wp False (wr_word llt i w ;;; atomic_granule_get llt ;;; Ret (RMI_SUCCESS, DATA)) (mkS L' S' G1 V T)
        (fun a s' => wp False (unmap_slot SLOT_RTT ;;; Ret a) s'
          (fun a s' => wp False (granule_unlock llt ;;; Ret a) s'
            (fun a s' => wp False (unmap_slot SLOT_RD ;;; granule_unlock rd ;;; granule_unlock_transition data (snd a) ;;; Ret (fst a)) s' Q)))).
    { intros e' w G1 L' S' fd HA HV HW G1l G1d G1r Ur HL' HS' K.
      apply wp_bind. eapply wp_wr_word; [rewrite G1l; reflexivity|].
      apply wp_bind, wp_atomic_get; [side|updsimp; rewrite G1l; cbn [g_ref]; change REFCOUNT_MAX with 1023; lia|].
      apply wp_ret. apply wp_bind, wp_unmap_slot; [side|]. apply wp_ret.
      apply wp_bind, wp_granule_unlock; [side| |].
      { unfold uok. updsimp. rewrite G1l. cbn [g_state g_ref unlocked_inv]. lia. }
      apply wp_ret. cbn [fst snd]. apply wp_bind, wp_unmap_slot; [side|].
      apply wp_bind, wp_granule_unlock; [side|updsimp; exact Ur|].
      apply wp_bind, wp_unlock_transition; [side|updsimp; rewrite G1d; reflexivity|]. apply wp_ret.
      match goal with |- Q _ (mkS _ _ ?g _ _) => destruct (K g) as (labs & gh' & GE & P) end.
      - updsimp. rewrite G1l. reflexivity.
      - updsimp. rewrite G1d. reflexivity.
      - intros z z1 z2. updsimp. reflexivity.
      - unfold Q. eapply post_ok; [lk|lk|exact GE|instantiate (1 := []); reflexivity|].
        split; [reflexivity|exact P]. }
    pose proof (ae_words _ _ _ _ _ _ _ _ _ _ A) as WO.
    apply wp_bind. destruct src as [[m flags]|].
    - apply wp_bind, wp_map_slot; [side|].
      apply wp_bind, wp_map_slot; [side|]. apply wp_bind, wp_unmap_slot; [side|].
      destruct m as [m|].
      + apply wp_bind, wp_wr_mem. apply wp_bind, wp_put_rd. apply wp_bind, wp_unmap_slot; [side|].
        apply wp_bind, wp_assert; [exact AOK|]. apply wp_ret.
        set (d' := set_meas _ _ _).
        eapply (OK (EAsRam data) _ _ _ _ m).
        * reflexivity.
        * split; [unfold block_level; lia|exact Pd].
        * reflexivity.
        * updsimp. destruct (G llt); cbn in *. congruence.
        * updsimp. rewrite Gd. reflexivity.
        * updsimp. exact Sr.
        * updsimp. pose proof (inv_uok _ _ _ _ I rd) as U. unfold uok in *. cbn [g_state g_ref]. exact U.
        * lk.
        * lk.
        * intros G' Gl' Gd' Fr.
          eexists. eexists. split.
          -- eapply gs_cons with (V1 := V).
             ++ eapply (g_rd c gh G V rd d d' (upd G rd (mkG RD (g_ref (G rd)) (CRd d')))); [exact R| | |].
                ** apply set_meas_le. eapply rd_state_ok; exact R.
                ** updsimp. reflexivity.
                ** intros z nz. updsimp. reflexivity.
             ++ eapply geffs_one. eapply (ge_assign c gh _ V rd d' (addr / ms 3) llt i f e (EAsRam data) (upd f i _) data m).
                ** split; updsimp; reflexivity.
                ** destruct A. constructor; try assumption; updsimp; assumption.
                ** exact Asg0.
                ** exact Tab0.
                ** reflexivity.
                ** split; [unfold block_level; lia|exact Pd].
                ** exact Hn.
                ** updsimp. exact Sd.
                ** eapply words_upd; [exact WO|reflexivity|]. reflexivity.
                ** rewrite Gl'. updsimp. reflexivity.
                ** exact Gd'.
                ** intros z z1 z2. rewrite Fr by assumption. destruct (N.eq_dec z rd) as [->|]; updsimp; [rewrite Sr; reflexivity|reflexivity].
          -- exists d, e. split; [exact R|]. split; [exact NEW|]. split; [exact Hp|]. split; [exact Hal|]. split; [exact Un|].
             exists m. split; reflexivity.
      + apply wp_bind, wp_memzero_mapped. apply wp_bind, wp_unmap_slot; [side|]. apply wp_ret. apply wp_ret.
        apply wp_bind, wp_unmap_slot; [side|]. apply wp_ret.
        apply wp_bind, wp_granule_unlock; [side|updsimp; apply (inv_uok _ _ _ _ I)|]. apply wp_ret.
        apply END; try discriminate; try lk.
        { intro z. destruct (N.eq_dec z data) as [->|]; updsimp; [rewrite Gd; reflexivity|reflexivity]. }
        left. split; [reflexivity|]. right. eexists. reflexivity.
    - apply wp_bind, wp_assert.
      { rewrite AOK. cbn [andb]. destruct e; cbn in Un; try discriminate; reflexivity. }
      apply wp_ret.
      eapply (OK (assign_e e data) _ _ _ _ (fun _ => 0)).
      * destruct e; cbn in Un; try discriminate; reflexivity.
      * destruct e; cbn in Un; try discriminate; split; try exact Pd; unfold block_level; lia.
      * pose proof (create_assigned_unchanged_enc (enable_lpa2 x) 3 e data) as U. destruct e; cbn in Un; try discriminate; exact U.
      * destruct (G llt); cbn in *. congruence.
      * rewrite Gd. reflexivity.
      * exact Sr.
      * apply (inv_uok _ _ _ _ I).
      * lk.
      * lk.
      * intros G' Gl' Gd' Fr.
        eexists. eexists. split.
        -- eapply geffs_one. eapply (ge_assign c gh G V rd d (addr / ms 3) llt i f e (assign_e e data) (upd f i _) data (fun _ => 0)).
           ** exact R.
           ** exact A.
           ** exact Asg0.
           ** exact Tab0.
           ** destruct e; cbn in Un; try discriminate; reflexivity.
           ** destruct e; cbn in Un; try discriminate; split; try exact Pd; unfold block_level; lia.
           ** exact Hn.
           ** exact Sd.
           ** eapply words_upd; [exact WO|reflexivity|].
              pose proof (create_assigned_unchanged_enc (enable_lpa2 x) 3 e data) as U. destruct e; cbn in Un; try discriminate; exact U.
           ** exact Gl'.
           ** exact Gd'.
           ** exact Fr.
        -- exists d, e. split; [exact R|]. split; [exact NEW|]. split; [exact Hp|]. split; [exact Hal|]. split; [exact Un|]. reflexivity. }
  apply wp_bind. destruct src as [[m flags]|].
  - unfold validate_data_create. destruct (N.eqb_spec (rd_state d) REALM_NEW) as [Nw|Nw]; cbn [negb].
    + eapply wp_validate_unknown; [exact R| |].
      * intros Hp Hal. cbv zeta. cbn [N.eqb negb RMI_SUCCESS]. apply MAIN; auto.
      * intro K. cbv zeta. apply VAL; [discriminate|]. left. split; [reflexivity|]. left. eapply (bad_rd G); [exact R|]. tauto.
    + apply wp_ret. cbv zeta. apply VAL; [discriminate|]. right. left. split; [reflexivity|]. split; [reflexivity|]. exists d. auto.
  - eapply wp_validate_unknown; [exact R| |].
    + intros Hp Hal. cbv zeta. cbn [N.eqb negb RMI_SUCCESS]. apply MAIN; auto. discriminate.
    + intro K. cbv zeta. apply VAL; [discriminate|]. left. split; [reflexivity|]. left. eapply (bad_rd G); [exact R|]. tauto.
Qed.

Lemma wp_data_create_unknown : forall rd data addr,
  wp False (smc_data_create_unknown c rd data addr) (mkS L S G V T) (fun r s' =>
    cmd_post c gh G V T r ((r = RMI_ERROR_INPUT /\ ~ data_args rd data addr) \/ walk_fail gh G rd addr 3 un_e r)
      (fun gh' labs inv => inv = [] /\ exists d e, is_rd G rd d /\
         addr < 2 ^ (ipa_bits (rd_ctx d) - 1) /\ addr mod 4096 = 0 /\ un_e e = true /\
         labs = [LAssign rd (addr / 4096) e (assign_e e data) data (fun _ => 0)]) s').
Proof.
  intros rd data addr. eapply wp_conseq; [apply (wp_data_create_gen rd data addr None)|auto|].
  cbv beta iota zeta. intros r s' (Q & F & P). split; [exact Q|]. split.
  - intro nz. destruct (F nz) as (F1 & F2). split; [exact F1|]. destruct F2 as [(F2 & F3)|[(N0 & _)|F2]]; [|discriminate|auto].
    left. split; [exact F2|]. destruct F3 as [F3|(fl & F3)]; [exact F3|discriminate F3].
  - intro z. destruct (P z) as (labs & gh' & inv & GE & TE & In & d & e & R & _ & P2). exists labs, gh', inv.
    split; [exact GE|]. split; [exact TE|]. split; [exact In|]. exists d, e. split; [exact R|exact P2].
Qed.

Lemma wp_data_create : forall m rd data addr src flags,
  wp False (smc_data_create c m rd data addr src flags) (mkS L S G V T) (fun r s' =>
    cmd_post c gh G V T r
      ((r = RMI_ERROR_INPUT /\ ~ (data_args rd data addr /\ (flags = RMI_NO_MEASURE_CONTENT \/ flags = RMI_MEASURE_CONTENT) /\
          find_granule c src = true /\ g_state (G src) = NS /\ m <> None)) \/
       (r = RMI_ERROR_REALM /\ exists d, is_rd G rd d /\ rd_state d <> REALM_NEW) \/ walk_fail gh G rd addr 3 un_e r)
      (fun gh' labs inv => inv = [] /\ exists d e f, is_rd G rd d /\ rd_state d = REALM_NEW /\
         addr < 2 ^ (ipa_bits (rd_ctx d) - 1) /\ addr mod 4096 = 0 /\ un_e e = true /\ m = Some f /\
         (flags = RMI_NO_MEASURE_CONTENT \/ flags = RMI_MEASURE_CONTENT) /\ g_state (G src) = NS /\ find_granule c src = true /\
         labs = [LRd rd d (set_meas d RIM_MEASUREMENT_SLOT
                   (measurement_data_granule_measure c (rd_meas d RIM_MEASUREMENT_SLOT) (rd_algorithm d) f addr flags));
                 LAssign rd (addr / 4096) e (EAsRam data) data f]) s').
Proof.
  intros m rd data addr src flags. unfold smc_data_create.
  destruct (N.eqb_spec flags RMI_NO_MEASURE_CONTENT) as [Fl|Fl]; cbn [negb andb].
  2: destruct (N.eqb_spec flags RMI_MEASURE_CONTENT) as [Fl2|Fl2]; cbn [negb andb].
  3:{ apply wp_ret. apply post_fail; try assumption; try discriminate; try reflexivity. left. split; [reflexivity|]. intros (_ & [K|K] & _); contradiction. }
  all: destruct (find_granule c src) eqn:Fs; cbn [negb];
    [|apply wp_ret; apply post_fail; try assumption; try discriminate; try reflexivity; left; (split; [reflexivity|]); intros (_ & _ & K & _); congruence].
  all: apply wp_bind, wp_rd_state; destruct (gstate_eqb (g_state (G src)) NS) eqn:Sn; cbn [negb];
    [|apply wp_ret; apply post_fail; try assumption; try discriminate; try reflexivity; left; (split; [reflexivity|]); intros (_ & _ & _ & K & _); rewrite K in Sn; discriminate Sn].
  all: apply gstate_eqb_eq in Sn.
  all: eapply wp_conseq; [apply (wp_data_create_gen rd data addr (Some (m, flags)))|auto|];
    cbv beta iota zeta; intros r s' (Q & F & P); (split; [exact Q|]); split;
    [intro nz; destruct (F nz) as (F1 & F2); split; [exact F1|]; destruct F2 as [(F2 & F3)|[(_ & F2)|F2]]; [|auto|auto]; left; (split; [exact F2|]); intros (K1 & _ & _ & _ & K2); destruct F3 as [F3|(fl & F3)]; [contradiction|]; injection F3; congruence|];
    intro z; destruct (P z) as (labs & gh' & inv & GE & TE & In & d & e & R & Nw & P1 & P2 & P3 & f & P4 & P5); exists labs, gh', inv;
    (split; [exact GE|]); (split; [exact TE|]); (split; [exact In|]); exists d, e, f; repeat (split; [solve [auto]|]); exact P5.
Qed.

Lemma wp_data_destroy : forall rd addr,
  wp False (smc_data_destroy c rd addr) (mkS L S G V T) (fun r s' =>
    cmd_post c gh G V T (x0 r)
      ((x0 r = RMI_ERROR_INPUT /\ ~ exists d, is_rd G rd d /\ addr < 2 ^ (ipa_bits (rd_ctx d) - 1) /\ addr mod 4096 = 0) \/
       walk_fail_top gh G rd addr 3 asg_e (x0 r) (x2 r))
      (fun gh' labs inv => exists d e wi, is_rd G rd d /\
         addr < 2 ^ (ipa_bits (rd_ctx d) - 1) /\ addr mod 4096 = 0 /\ asg e = Some (x1 r) /\
         labs = [LRelease rd (addr / 4096) e (unassign_e e) (x1 r)] /\
         walk_res gh (rd_ctx d) rd addr 3 wi /\ w_level wi = 3%Z /\
         top_ok (ent gh' (w_llt wi)) 3 (w_index wi) addr (x2 r) /\
         inv = match e with EAsRam _ => [(vmid (rd_ctx d), addr, 4096)] | _ => [] end) s').
Proof.
  intros rd addr. unfold smc_data_destroy.
  apply wp_bind, wp_find_lock; [apply HL|apply (inv_uok _ _ _ _ I)| |].
  2:{ intros L' HL' K. apply wp_ret. apply post_fail; try assumption; try discriminate; try reflexivity; [lk|].
      left. split; [reflexivity|]. apply (no_rd _ _ _ _ I), K. }
  intros F Sr. cbn [negb].
  apply wp_bind, wp_map_slot; [side|].
  destruct (rd_of_state _ _ _ _ I rd Sr) as (d & R & Ar).
  apply wp_bind. eapply wp_get_rd; [exact Ar|].
  pose proof (in_par_iff _ _ _ _ I rd d addr R) as IP.
  pose proof (inv_ctx _ _ _ _ I _ _ R) as X. pose proof (ctx_sl _ X) as SL. pose proof (ctx_min _ X) as MIN.
  match goal with |- wp _ _ _ ?q => set (Q := q) end.
  assert (FAIL0 : ~ (addr < 2 ^ (ipa_bits (rd_ctx d) - 1) /\ addr mod 4096 = 0) -> wp False (unmap_slot SLOT_RD ;;; granule_unlock rd ;;; Ret (res0 RMI_ERROR_INPUT)) (mkS (upd L rd true) (upd S SLOT_RD true) G V T) Q).
  { intro NA. apply wp_bind, wp_unmap_slot; [side|]. apply wp_bind, wp_granule_unlock; [side|apply (inv_uok _ _ _ _ I)|]. apply wp_ret.
    unfold Q. cbn [x0 res0]. apply post_fail; try discriminate; try reflexivity; try lk. left. split; [reflexivity|]. eapply (bad_rd G); [exact R|exact NA]. }
  change S2TT_PAGE_LEVEL with 3%Z.
  apply wp_bind. destruct (addr_in_par d addr) eqn:Par; cbn [negb].
  2:{ apply wp_ret. cbn [negb]. apply FAIL0. intros [K _]. apply IP in K. discriminate K. }
  assert (Hp : addr < 2 ^ (ipa_bits (rd_ctx d) - 1)) by (apply IP; reflexivity). clear IP.
  eapply (wp_validate_map _ _ _ _ I); [exact R|lia|]. intros b Hb. destruct b; cbn [negb].
  2:{ apply FAIL0. intros [_ K]. assert (false = true); [|discriminate]. apply Hb. split; [|exact K]. exact (par_ipa rd d addr R Hp). }
  clear FAIL0.
  destruct (proj1 Hb eq_refl) as (Ha & Hal). clear Hb. change (ms 3) with 4096 in Hal.
  set (x := rd_ctx d) in *.
  apply wp_bind, wp_unmap_slot; [side|].
  apply (wp_lock_walk _ _ _ _ I _ _ rd d); try assumption; try (fold x; lia); try side.
  { intros a Sa. unfold upd. destruct (N.eqb_spec a rd); [congruence|apply HL]. }
  intros wi L2 S2 HL2 HS2 W. cbv zeta.
  destruct (walk_at _ _ _ _ I _ _ _ _ _ R W) as (f & e & A & Hwl & NT).
  fold x in A, Hwl.
  pose proof (ae_st _ _ _ _ _ _ _ _ _ _ A) as Sl.
  assert (n1 : w_llt wi <> rd) by congruence.
  pose proof (ae_valid _ _ _ _ _ _ _ _ _ _ A) as VE. pose proof (ae_mem _ _ _ _ _ _ _ _ _ _ A) as Ml.
  pose proof (ae_f _ _ _ _ _ _ _ _ _ _ A) as Hf. pose proof (ae_lt _ _ _ _ _ _ _ _ _ _ A) as Hi.
  pose proof (ctx_bits52 _ X) as B52.
  assert (Ha52 : addr < 2 ^ 52) by (eapply N.lt_le_trans; [exact Ha|apply pow2_le; exact B52]).
  pose proof (at_valid c gh G V I x rd d _ _ _ _ _ _ R eq_refl A) as VA.
  apply wp_bind, wp_map_slot; [side|]. apply wp_bind.
  assert (FAIL : forall L' S', (forall z, L' z = L2 z) -> (forall z, S' z = upd S2 SLOT_RTT true z) -> (w_level wi = 3%Z -> asg_e e = false) ->
     wp False (t <- get_table (w_llt wi) ;; x2 <- s2tt_skip_non_live_entries_ x addr t wi ;;
      unmap_slot SLOT_RTT ;;; granule_unlock (w_llt wi) ;;; Ret (mkRes (pack_return_code RMI_ERROR_RTT (w_level wi)) 0 x2 0 0)) (mkS L' S' G V T) Q).
  { intros L' S' HL' HS' NA. apply wp_bind. eapply wp_get_table; [exact Ml|].
    apply wp_bind. eapply (wp_skip _ x rd (w_level wi)); [exact (ae_words _ _ _ _ _ _ _ _ _ _ A)|exact VA|reflexivity|exact Hi|lia|exact Ha52|].
    intros top Ht. apply wp_bind, wp_unmap_slot; [side|].
    apply wp_bind, wp_granule_unlock; [side|apply (inv_uok _ _ _ _ I)|]. apply wp_ret.
    unfold Q. cbn [x0 x2]. apply post_fail; try apply pack_nonzero; try reflexivity; try lk. right. exists d, wi. repeat (split; [first [assumption|reflexivity]|]). split; [|exact Ht].
    rewrite <- (ae_e _ _ _ _ _ _ _ _ _ _ A). exact NA. }
  destruct (Z.eqb_spec (w_level wi) 3) as [El|]; cbn [negb].
  2:{ apply wp_ret. apply FAIL; try reflexivity. contradiction. }
  rewrite El in A, VA, VE, FAIL, Hf.
  apply wp_bind. eapply wp_rd_word; [exact Ml|]. rewrite Hf.
  rewrite (is_assigned_ram_enc _ _ _ VE), (is_assigned_empty_enc _ _ _ VE), (is_assigned_destroyed_enc _ _ _ VE).
  apply wp_bind.
  set (llt := w_llt wi) in *. set (i := w_index wi) in *.
  assert (OK : forall pa w T', asg e = Some pa -> w = enc (enable_lpa2 x) 3 (unassign_e e) ->
     T' = invals (match e with EAsRam _ => [(vmid x, addr, 4096)] | _ => [] end) T ->
     wp False (atomic_granule_put llt ;;;
               (ok <- find_lock_granule c pa DATA ;;
               assert_ ok ;;;
               buffer_granule_memzero pa SLOT_DELEGATED ;;;
               granule_unlock_transition pa DELEGATED ;;;
               Ret (RMI_SUCCESS, pa)))
        (mkS L2 (upd S2 SLOT_RTT true) (upd G llt (mkG (g_state (G llt)) (g_ref (G llt)) (CW (upd f i w)))) V T')
        (fun out s' => wp False (t <- get_table llt ;; x2 <- s2tt_skip_non_live_entries_ x addr t wi ;;
            unmap_slot SLOT_RTT ;;; granule_unlock llt ;;; Ret (mkRes (fst out) (snd out) x2 0 0)) s' Q)).
  { intros pa w T' Asg Ew ET.
    assert (D : dmap gh pa = Some (rd, addr / ms 3)).
    { pose proof (ae_ok _ _ _ _ _ _ _ _ _ _ A) as [_ O].
      replace pa with (pa + (addr / ms 3) mod pg 3 * 4096) by (rewrite pg_3, N.mod_1_r, N.mul_0_l, N.add_0_r; reflexivity).
      destruct e; cbn in Asg; try discriminate; injection Asg as ->; apply O; rewrite pg_3; apply N.div_1_r. }
    destruct (i_dmap _ _ _ _ I _ _ _ D) as [Sp _].
    destruct (i_data _ _ _ _ I _ Sp) as (Rp & (fp & Mp) & _).
    assert (np : pa <> llt) by congruence. assert (npr : pa <> rd) by congruence.
    assert (CN : counted e = true) by (destruct e; cbn in Asg; try discriminate; reflexivity).
    pose proof (at_ref _ _ _ _ I x rd d _ _ _ _ _ _ R eq_refl A CN) as RF.
    apply wp_bind, wp_atomic_put; [side|updsimp; lia|].
    apply wp_bind, wp_find_lock; [side|updsimp; apply (inv_uok _ _ _ _ I)| |].
    2:{ intros L' _ [N1|N1].
        - rewrite (i_gran _ _ _ _ I pa) in N1; [discriminate|rewrite Sp; discriminate].
        - exfalso. apply N1. updsimp. exact Sp. }
    intros Fp _. apply wp_bind, wp_assert; [reflexivity|].
    apply wp_bind, wp_memzero; [side|]. intros S3 HS3.
    apply wp_bind, wp_unlock_transition; [side|updsimp; rewrite Rp; reflexivity|]. apply wp_ret. cbn [fst snd].
    assert (W' : words_ok (enable_lpa2 x) 3 (upd f i w) (upd (ent gh llt) i (unassign_e e))).
    { eapply words_upd; [exact (ae_words _ _ _ _ _ _ _ _ _ _ A)|reflexivity|exact Ew]. }
    apply wp_bind. eapply wp_get_table; [updsimp; reflexivity|].
    apply wp_bind. eapply (wp_skip _ x rd 3); [exact W'| |symmetry; exact El|exact Hi|lia|exact Ha52|].
    { intros j Hj. unfold upd. destruct (N.eqb_spec j i); [destruct e; cbn in Asg; try discriminate; exact Logic.I|apply VA; exact Hj]. }
    intros top Ht. fold i in Ht. apply wp_bind, wp_unmap_slot; [side|].
    apply wp_bind, wp_granule_unlock; [side|unfold uok; updsimp; rewrite Sl; cbn [unlocked_inv]; lia|]. apply wp_ret.
    unfold Q. cbn [x0 x1 x2]. eapply post_ok; [lk|lk| |exact ET|].
    - eapply geffs_one. eapply (ge_release _ _ _ _ _ d (addr / ms 3) llt i f e (unassign_e e) (upd f i w) pa); try exact R; try exact A.
      + exact Asg.
      + destruct e; cbn in Asg; try discriminate; reflexivity.
      + destruct e; cbn in Asg; try discriminate; reflexivity.
      + assert (Hn : addr / ms 3 < parn x 3) by (apply num_parn; [assumption|lia|assumption]).
        split; [|]; destruct e; cbn in Asg; try discriminate; cbn; auto; exact Logic.I.
      + exact W'.
      + updsimp. rewrite Sl. reflexivity.
      + updsimp. rewrite Rp. reflexivity.
      + intros z z1 z2. updsimp. reflexivity.
    - exists d, e, wi. split; [exact R|]. split; [exact Hp|]. split; [exact Hal|]. split; [exact Asg|]. split; [reflexivity|].
      split; [exact W|]. split; [exact El|]. split; [|reflexivity].
      fold llt i. unfold set_dmap, set_ent. cbn [ent]. rewrite upd_same. exact Ht. }
  pose proof (pa_enc _ _ _ VE) as PE. pose proof (is_live_enc _ _ _ VE) as LE.
  destruct e as [| | | |pa|pa|pa|at_ pa|b] eqn:Ee; cbn [negb];
    try (apply wp_ret; apply wp_ret; cbn [fst snd]; apply FAIL; reflexivity).
  - apply wp_bind, wp_s2tte_pa; [lia|exact LE|]. rewrite PE.
    apply wp_bind. eapply wp_wr_word; [exact Ml|]. apply wp_ret. apply (OK pa); reflexivity.
  - apply wp_bind, wp_s2tte_pa; [lia|exact LE|]. rewrite PE.
    apply wp_bind. eapply wp_wr_word; [exact Ml|]. apply wp_bind, wp_tlbi. apply wp_ret. apply (OK pa); reflexivity.
  - apply wp_bind, wp_s2tte_pa; [lia|exact LE|]. rewrite PE.
    apply wp_bind. eapply wp_wr_word; [exact Ml|]. apply wp_ret. apply (OK pa); reflexivity.
Qed.
End Cmd.
