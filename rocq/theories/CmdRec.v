(** REC_CREATE, REC_DESTROY, REC_AUX_COUNT and PSCI_COMPLETE *)
From Coq Require Import NArith ZArith List Bool Lia ZifyBool ZifyN.
From Verif Require Import Bits S2tte S2tteFacts State Granule Wp RecFields Measure RmiGranule RmiRtt RmiRealm Psci RmiRec
  Inv InvTree InvStep InvStep2 InvStep3 Effects CmdLib CmdRtt CmdFold CmdRtt2 CmdNs CmdData CmdList.
Import ListNotations.
Local Open Scope N_scope.

(** The list of auxiliary granules on which REC_CREATE fails an assertion: some
    granule after the first is unknown, not delegated or a repetition, and all
    before it are delegated (finding F1). *)
Definition aux_bad (c : cfg) (G : N -> granule) (l : list N) : Prop :=
  exists l1 a l2, l = l1 ++ a :: l2 /\ l1 <> [] /\ NoDup l1 /\
    (forall z, In z l1 -> find_granule c z = true /\ g_state (G z) = DELEGATED) /\
    (find_granule c a = false \/ g_state (G a) <> DELEGATED \/ In a l1).

Section Rules.
Variable E : Prop.
Implicit Types (L S : N -> bool) (G : N -> granule) (V : N -> bool) (T : list tlbe).

Lemma wp_free_aux : forall l i (scrub : bool) L S G V T (Q : _ -> state -> Prop),
  NoDup l -> (forall k, S (SLOT_REC_AUX0 + k) = false) ->
  (forall g, In g l -> L g = false /\ g_state (G g) = REC_AUX /\ g_ref (G g) = 0) ->
  (forall L' S' G', (forall z, L' z = L z) -> (forall z, S' z = S z) ->
     (forall z, G' z = if memN z l then mkG DELEGATED 0 (if scrub then czero else g_mem (G z)) else G z) ->
     Q tt (mkS L' S' G' V T)) ->
  wp E (free_rec_aux_granules l i scrub) (mkS L S G V T) Q.
Proof.
  induction l as [|a l IH]; intros i scrub L S G V T Q ND HS H HQ; cbn [free_rec_aux_granules].
  - apply wp_ret, HQ; intro z; reflexivity.
  - inversion ND as [|? ? Na ND']; subst. destruct (H a) as (H1 & H2 & H3); [left; reflexivity|].
    apply wp_bind, wp_granule_lock; [exact H1|unfold uok; rewrite H2, H3; reflexivity|exact H2|].
    apply wp_bind.
    assert (X : forall S1 G1, (forall z, S1 z = S z) ->
      (forall z, G1 z = if z =? a then mkG REC_AUX 0 (if scrub then czero else g_mem (G a)) else G z) ->
      wp E (granule_unlock_transition a DELEGATED ;;; free_rec_aux_granules l (i + 1) scrub) (mkS (upd L a true) S1 G1 V T) Q).
    { intros S1 G1 HS1 HG1.
      apply wp_bind, wp_unlock_transition; [side|rewrite HG1, N.eqb_refl; reflexivity|].
      apply IH; [exact ND'|intro k; rewrite HS1; apply HS| |].
      + intros g Hg. assert (g <> a) by congruence. rewrite !upd_other by assumption. rewrite HG1.
        destruct (N.eqb_spec g a); [contradiction|]. apply H. right. exact Hg.
      + intros L' S' G' HL' HS' HG'. apply HQ; intro z.
        * rewrite HL'. unfold upd. destruct (N.eqb_spec z a) as [->|]; [symmetry; exact H1|reflexivity].
        * rewrite HS', HS1. reflexivity.
        * rewrite HG', memN_cons. unfold upd. rewrite !HG1, N.eqb_refl. destruct (N.eqb_spec z a) as [->|]; cbn [orb].
          -- apply memN_out in Na. rewrite Na. reflexivity.
          -- reflexivity. }
    destruct scrub.
    + apply wp_memzero; [apply HS|]. intros S1 HS1. apply X; [exact HS1|].
      intro z. unfold upd. rewrite H2, H3. reflexivity.
    + apply wp_ret. apply X; [reflexivity|]. intro z. destruct (N.eqb_spec z a) as [->|]; [|reflexivity].
      destruct (G a); cbn in *; congruence.
Qed.

Lemma wp_map_aux : forall (l : list N) i L S G V T (Q : _ -> state -> Prop),
  (forall k, i <= k -> S (SLOT_REC_AUX0 + k) = false) ->
  (forall S', (forall z, S' z = ((SLOT_REC_AUX0 + i <=? z) && (z <? SLOT_REC_AUX0 + i + N.of_nat (length l))) || S z) ->
     Q tt (mkS L S' G V T)) ->
  wp E (map_aux l i) (mkS L S G V T) Q.
Proof.
  induction l as [|a l IH]; intros i L S G V T Q HS HQ; cbn [map_aux].
  - apply wp_ret, HQ. intro z. cbn [length N.of_nat].
    destruct (N.leb_spec (SLOT_REC_AUX0 + i) z), (N.ltb_spec z (SLOT_REC_AUX0 + i + 0)); try reflexivity. exfalso. lia.
  - apply wp_bind, wp_map_slot; [apply HS; lia|]. apply IH.
    + intros k Hk. rewrite upd_other by lia. apply HS. lia.
    + intros S' HS'. apply HQ. intro z. rewrite HS'. unfold upd. cbn [length].
      destruct (N.eqb_spec z (SLOT_REC_AUX0 + i)) as [->|nz].
      * rewrite orb_true_r. symmetry. rewrite orb_true_iff, andb_true_iff. left. split; [apply N.leb_refl|lia].
      * f_equal. destruct (N.leb_spec (SLOT_REC_AUX0 + (i + 1)) z), (N.leb_spec (SLOT_REC_AUX0 + i) z); cbn [andb]; try lia;
          destruct (N.ltb_spec z (SLOT_REC_AUX0 + (i + 1) + N.of_nat (length l))), (N.ltb_spec z (SLOT_REC_AUX0 + i + N.of_nat (Datatypes.S (length l)))); try reflexivity; lia.
Qed.
Lemma wp_unmap_aux : forall (l : list N) i L S G V T (Q : _ -> state -> Prop),
  (forall z, SLOT_REC_AUX0 + i <= z < SLOT_REC_AUX0 + i + N.of_nat (length l) -> S z = true) ->
  (forall S', (forall z, S' z = negb ((SLOT_REC_AUX0 + i <=? z) && (z <? SLOT_REC_AUX0 + i + N.of_nat (length l))) && S z) ->
     Q tt (mkS L S' G V T)) ->
  wp E (unmap_aux l i) (mkS L S G V T) Q.
Proof.
  induction l as [|a l IH]; intros i L S G V T Q HS HQ; cbn [unmap_aux].
  - apply wp_ret, HQ. intro z. cbn [length N.of_nat].
    destruct (N.leb_spec (SLOT_REC_AUX0 + i) z), (N.ltb_spec z (SLOT_REC_AUX0 + i + 0)); try reflexivity. exfalso. lia.
  - apply wp_bind, wp_unmap_slot; [apply HS; cbn [length]; lia|]. apply IH.
    + intros z Hz. rewrite upd_other by lia. apply HS. cbn [length]. lia.
    + intros S' HS'. apply HQ. intro z. rewrite HS'. unfold upd. cbn [length].
      destruct (N.eqb_spec z (SLOT_REC_AUX0 + i)) as [->|nz].
      * rewrite andb_false_r. symmetry. rewrite andb_false_iff, negb_false_iff, andb_true_iff. left. split; [apply N.leb_refl|lia].
      * f_equal. f_equal. destruct (N.leb_spec (SLOT_REC_AUX0 + (i + 1)) z), (N.leb_spec (SLOT_REC_AUX0 + i) z); cbn [andb]; try lia;
          destruct (N.ltb_spec z (SLOT_REC_AUX0 + (i + 1) + N.of_nat (length l))), (N.ltb_spec z (SLOT_REC_AUX0 + i + N.of_nat (Datatypes.S (length l)))); try reflexivity; lia.
Qed.
Lemma wp_aux_init : forall (l : list N) L S G V T (Q : _ -> state -> Prop),
  length l = 16%nat -> (forall k, S (SLOT_REC_AUX0 + k) = false) ->
  (forall S', (forall z, S' z = S z) -> Q tt (mkS L S' G V T)) ->
  wp E (rec_aux_granules_init l) (mkS L S G V T) Q.
Proof.
  intros l L S G V T Q Ll HS HQ. unfold rec_aux_granules_init.
  apply wp_bind, wp_map_aux; [intros; apply HS|]. intros S1 HS1.
  apply wp_bind, wp_assert; [rewrite Ll; reflexivity|].
  apply wp_unmap_aux.
  - intros z Hz. rewrite HS1. rewrite orb_true_iff. left. lia.
  - intros S2 HS2. apply HQ. intro z. rewrite HS2, HS1.
    destruct (N.leb_spec (SLOT_REC_AUX0 + 0) z); [|reflexivity].
    destruct (N.ltb_spec z (SLOT_REC_AUX0 + 0 + N.of_nat (length l))); cbn [andb negb orb]; [|reflexivity].
    symmetry. replace z with (SLOT_REC_AUX0 + (z - SLOT_REC_AUX0)) by lia. apply HS.
Qed.

(** Taking the auxiliary granules *)
Lemma wp_acquire_aux : forall c G0 l dn L S G V T (Q : _ -> state -> Prop),
  (forall z, uok (G0 z)) -> (forall z, g_state (G0 z) = DELEGATED -> G0 z = mkG DELEGATED 0 czero) ->
  free L -> NoDup dn -> (forall z, In z dn -> find_granule c z = true /\ g_state (G0 z) = DELEGATED) ->
  (forall z, G z = if memN z dn then mkG REC_AUX 0 czero else G0 z) ->
  (aux_bad c G0 (dn ++ l) -> E) ->
  (forall L' G', free L' -> NoDup (dn ++ l) ->
     (forall z, In z (dn ++ l) -> find_granule c z = true /\ g_state (G0 z) = DELEGATED) ->
     (forall z, G' z = if memN z (dn ++ l) then mkG REC_AUX 0 czero else G0 z) -> Q true (mkS L' S G' V T)) ->
  (forall L', free L' -> dn = [] -> Q false (mkS L' S G V T)) ->
  wp E (acquire_aux c l dn) (mkS L S G V T) Q.
Proof.
  intros c G0 l. induction l as [|a l IH]; intros dn L S G V T Q U D HL ND HD HG HE Q1 Q2; cbn [acquire_aux].
  - apply wp_ret. apply Q1; try assumption; rewrite app_nil_r; assumption.
  - apply wp_bind, wp_find_lock; [apply HL| | |].
    + unfold uok. rewrite HG. destruct (memN a dn); [reflexivity|apply U].
    + intros F St. rewrite HG in St. destruct (memN a dn) eqn:Ma; [discriminate|]. cbn [negb].
      apply wp_bind, wp_unlock_transition; [side|rewrite HG, Ma, (D a St); reflexivity|].
      assert (EL : (dn ++ [a]) ++ l = dn ++ a :: l) by (rewrite <- app_assoc; reflexivity).
      apply IH; rewrite ?EL; try assumption.
      * lk.
      * apply memN_out in Ma. clear -ND Ma. induction dn as [|b dn IH]; [constructor; [intros []|constructor]|].
        inversion ND as [|? ? Nb ND']; subst. constructor.
        -- rewrite in_app_iff. intros [K|[K|[]]]; [contradiction|subst; apply Ma; left; reflexivity].
        -- apply IH; [assumption|]. intro K. apply Ma. right. exact K.
      * intros z Hz. apply in_app_or in Hz. destruct Hz as [Hz|[<-|[]]]; [apply HD, Hz|split; assumption].
      * intro z. rewrite memN_app. unfold upd. cbn [memN existsb]. rewrite orb_false_r. rewrite HG, HG, Ma.
        destruct (N.eqb_spec z a) as [->|].
        -- rewrite orb_true_r, (D a St). reflexivity.
        -- rewrite orb_false_r. reflexivity.
      * intros L' HL' C. destruct dn; discriminate.
    + intros L' HL' X. cbn [negb].
      destruct dn as [|b dn].
      * cbn [unlock_all free_rec_aux_granules bind]. apply wp_ret. apply Q2; [|reflexivity]. intro z. rewrite HL'. apply HL.
      * cbn [unlock_all]. unfold granule_unlock, granule_get_state, assert_locked. unfold wp. cbn. rewrite HL', (HL b).
        apply HE. exists (b :: dn), a, l. split; [reflexivity|]. split; [discriminate|]. split; [exact ND|]. split; [exact HD|].
        destruct X as [X|X]; [auto|]. rewrite HG in X. destruct (memN a (b :: dn)) eqn:Ma; [|auto].
        apply memN_in in Ma. auto.
Qed.
End Rules.

(** What REC_CREATE changes in the realm descriptor *)
Definition created_rec_rd (c : cfg) (d : rdesc) (p : rec_params) (runnable : bool) : rdesc :=
  set_rd_rec_count
    (if runnable then
       set_meas d RIM_MEASUREMENT_SLOT (measurement_rec_params_measure c (rd_meas d RIM_MEASUREMENT_SLOT) (rd_algorithm d) p)
     else d) (rd_rec_count d + 1).

Lemma created_rec_le : forall c d p b, rd_ok c d -> rd_le c d (created_rec_rd c d p b).
Proof.
  intros c d p b O. unfold created_rec_rd, rd_le. destruct b; (split; [reflexivity|]); (split; [exact O|]);
    (split; [intros rc (H1 & H2 & H); cbn; (split; [exact H1|]); (split; [cbn; lia|exact H])|]); split; reflexivity.
Qed.

Lemma new_rec_ok : forall c d rd p aux b, length aux = 16%nat -> NoDup aux ->
  rec_mpidr_is_valid (rp_mpidr p) = true -> rd_rec_count d = rec_mpidr_to_idx (rp_mpidr p) ->
  rec_ok c (created_rec_rd c d p b) (new_rec c rec_zero d rd p (rd_rec_count d) aux).
Proof.
  intros c d rd p aux b La Na Hm Hi.
  set (n := new_rec _ _ _ _ _ _ _).
  assert (E : rd_ctx (created_rec_rd c d p b) = rd_ctx d /\ rd_rec_count (created_rec_rd c d p b) = rd_rec_count d + 1 /\
    rd_pmu_enabled (created_rec_rd c d p b) = rd_pmu_enabled d /\ rd_pmu_num_ctrs (created_rec_rd c d p b) = rd_pmu_num_ctrs d /\
    rd_algorithm (created_rec_rd c d p b) = rd_algorithm d /\ rd_simd (created_rec_rd c d p b) = rd_simd d).
  { unfold created_rec_rd. destruct b; repeat split. }
  destruct E as (E1 & E2 & E3 & E4 & E5 & E6).
  unfold rec_ok. rewrite E1, E2, E3, E4, E5, E6.
  split; [reflexivity|]. split; [unfold n; cbn [new_rec r_idx]; lia|]. split; [reflexivity|]. split; [reflexivity|].
  split. { exists (rp_mpidr p). split; [exact Hm|]. split; [symmetry; exact Hi|reflexivity]. }
  repeat (split; [reflexivity|]). split; [exact La|]. split; [exact Na|].
  unfold req_ok. cbn. split; [apply N.le_0_l|]. split; [reflexivity|]. split; [reflexivity|]. left. split; reflexivity.
Qed.

Section Cmd.
Variables (c : cfg) (gh : ghost) (G : N -> granule) (V : N -> bool).
Hypothesis C : cfg_ok c.
Hypothesis I : Inv c gh G V.
Variables (L S : N -> bool) (T : list tlbe).
Hypothesis HL : free L.
Hypothesis HS : free S.

Definition rec_create_bad (params : option rec_params) : Prop :=
  exists p, params = Some p /\ rp_num_aux p mod 2 ^ 32 <= MAX_REC_AUX_GRANULES /\
    aux_bad c G (aux_list p (rp_num_aux p mod 2 ^ 32)).

Lemma wp_rec_create : forall params rd rec pa,
  wp (rec_create_bad params) (smc_rec_create c params rd rec pa) (mkS L S G V T) (fun r s' =>
    cmd_post c gh G V T r
      (r = RMI_ERROR_INPUT \/
       (r = RMI_ERROR_REALM /\ exists d, is_rd G rd d /\ (rd_state d <> REALM_NEW \/ g_ref (G rd) = REFCOUNT_MAX)))
      (fun gh' labs inv => inv = [] /\ exists p d rc, params = Some p /\ is_rd G rd d /\ rd_state d = REALM_NEW /\
         find_granule c pa = true /\ g_state (G pa) = NS /\
         rec_mpidr_is_valid (rp_mpidr p) = true /\ rec_mpidr_to_idx (rp_mpidr p) = rd_rec_count d /\
         rp_num_aux p mod 2 ^ 32 = rd_num_rec_aux d /\
         rc = new_rec c rec_zero d rd p (rd_rec_count d) (aux_list p (rp_num_aux p mod 2 ^ 32)) /\
         labs = [LRecCreate rd rec d (created_rec_rd c d p (r_runnable rc)) rc]) s').
Proof.
  intros params rd rec pa. pose proof (inv_uok _ _ _ _ I) as U.
  match goal with |- wp _ _ _ ?q => set (Q := q) end.
  assert (FAIL : forall L' S' G' r, free L' -> free S' -> (forall z, G' z = G z) -> r <> RMI_SUCCESS ->
    (r = RMI_ERROR_INPUT \/
       (r = RMI_ERROR_REALM /\ exists d, is_rd G rd d /\ (rd_state d <> REALM_NEW \/ g_ref (G rd) = REFCOUNT_MAX))) ->
    Q r (mkS L' S' G' V T)).
  { intros. unfold Q. apply post_fail; try assumption; reflexivity. }
  unfold smc_rec_create.
  destruct (find_granule c pa) eqn:Fpa; cbn [negb]; [|apply wp_ret, FAIL; auto; discriminate].
  apply wp_bind, wp_rd_state.
  destruct (gstate_eqb (g_state (G pa)) NS) eqn:Np; cbn [negb]; [|apply wp_ret, FAIL; auto; discriminate].
  assert (Npa : g_state (G pa) = NS) by (destruct (g_state (G pa)); try discriminate; reflexivity). clear Np.
  apply wp_bind, wp_map_slot; [side|]. apply wp_bind, wp_unmap_slot; [side|].
  destruct params as [p|]; [|apply wp_ret, FAIL; auto; try discriminate; lk].
  cbv zeta. set (num := rp_num_aux p mod 2 ^ 32). set (aux := aux_list p num).
  destruct (N.ltb_spec MAX_REC_AUX_GRANULES num) as [Hn|Hn]; [apply wp_ret, FAIL; auto; try discriminate; lk|].
  apply wp_bind, (wp_acquire_aux _ c G aux []); try assumption.
  { intros z. apply (i_del _ _ _ _ I). }
  { constructor. }
  { intros z []. }
  { reflexivity. }
  { intro B. exists p. split; [reflexivity|]. split; assumption. }
  2:{ intros L' HL' _. cbn [negb]. apply wp_ret, FAIL; auto; try discriminate; lk. }
  cbn [app]. intros L1 G1 HL1 ND HA HG1. cbn [negb].
  set (S1 := upd (upd S SLOT_NS true) SLOT_NS false).
  assert (HS1 : free S1) by (unfold S1; lk). clearbody S1.
  assert (U1 : forall z, uok (G1 z)).
  { intro z. unfold uok. rewrite HG1. destruct (memN z aux); [reflexivity|apply U]. }
  assert (DA : forall z, In z aux -> G z = mkG DELEGATED 0 czero) by (intros z Hz; apply (i_del _ _ _ _ I), HA, Hz).
  (* giving the granules back *)
  assert (BACK : forall L' S' G' r, free L' -> free S' -> (forall z, G' z = G1 z) -> r <> RMI_SUCCESS ->
    (r = RMI_ERROR_INPUT \/
       (r = RMI_ERROR_REALM /\ exists d, is_rd G rd d /\ (rd_state d <> REALM_NEW \/ g_ref (G rd) = REFCOUNT_MAX))) ->
    wp (rec_create_bad (Some p)) ((if negb (r =? RMI_SUCCESS) then free_rec_aux_granules aux 0 false else Ret tt) ;;; Ret r)
       (mkS L' S' G' V T) Q).
  { intros L' S' G' r HL' HS' HG' Nr Fr. destruct (N.eqb_spec r RMI_SUCCESS) as [|_]; [contradiction|]. cbn [negb].
    apply wp_bind, wp_free_aux; [exact ND|intro; apply HS'| |].
    - intros g Hg. apply memN_in in Hg. rewrite HG', HG1, Hg. split; [apply HL'|split; reflexivity].
    - intros L2 S2 G2 HL2 HS2 HG2. apply wp_ret, FAIL; try assumption.
      + intro z. rewrite HL2. apply HL'.
      + intro z. rewrite HS2. apply HS'.
      + intro z. rewrite HG2, HG', HG1. destruct (memN z aux) eqn:Mz; [|reflexivity].
        apply memN_in in Mz. rewrite (DA z Mz). reflexivity. }
  apply wp_bind, wp_find_lock_two; [exact HL1|exact U1| |].
  2:{ intros L' HL' _. cbn [negb]. apply wp_bind, wp_ret. apply BACK; auto; try discriminate; lk. }
  intros L2 HL2 Ne Frec Frd Src Srd. cbn [negb].
  rewrite HG1 in Src, Srd. destruct (memN rec aux) eqn:Mrec; [discriminate|]. destruct (memN rd aux) eqn:Mrd; [discriminate|].
  destruct (rd_of_state _ _ _ _ I rd Srd) as (d & R & Ar).
  pose proof (i_del _ _ _ _ I _ Src) as Zrec.
  assert (G1rd : G1 rd = G rd) by (rewrite HG1, Mrd; reflexivity).
  assert (G1rec : G1 rec = mkG DELEGATED 0 czero) by (rewrite HG1, Mrec; exact Zrec).
  assert (FIN : forall S' G' r, free S' -> (forall z, G' z = G1 z) -> r <> RMI_SUCCESS ->
    (r = RMI_ERROR_INPUT \/
       (r = RMI_ERROR_REALM /\ exists d, is_rd G rd d /\ (rd_state d <> REALM_NEW \/ g_ref (G rd) = REFCOUNT_MAX))) ->
    wp (rec_create_bad (Some p)) (granule_unlock rd ;;; granule_unlock_transition rec DELEGATED ;;; Ret r) (mkS L2 S' G' V T)
      (fun a s' => wp (rec_create_bad (Some p)) ((if negb (a =? RMI_SUCCESS) then free_rec_aux_granules aux 0 false else Ret tt) ;;; Ret a) s' Q)).
  { intros S' G' r HS' HG' Nr Fr.
    apply wp_bind, wp_granule_unlock; [rewrite HL2; side|rewrite HG'; apply U1|].
    apply wp_bind, wp_unlock_transition; [rewrite upd_other by assumption; rewrite HL2; side|rewrite HG', G1rec; reflexivity|].
    apply wp_ret. apply BACK; try assumption.
    - lk.
    - intro z. unfold upd. destruct (N.eqb_spec z rec) as [->|]; [|apply HG']. rewrite HG', G1rec. reflexivity. }
  apply wp_bind, wp_bind. unfold rec_create_locked. apply wp_bind, wp_rd_ref. rewrite G1rd.
  destruct (N.eqb_spec (g_ref (G rd)) REFCOUNT_MAX) as [Hmax|Hmax].
  { apply wp_ret. cbn [fst snd]. apply FIN; try assumption; try reflexivity; try discriminate. right. split; [reflexivity|]. exists d. auto. }
  assert (Bmax : g_ref (G rd) + 1 <= REFCOUNT_MAX).
  { destruct (i_rd _ _ _ _ I _ Srd) as (d0 & _ & _ & Rf). pose proof (i_recs_nodup _ _ _ _ I rd) as (_ & B). rewrite <- Rf in B. lia. }
  apply wp_bind, wp_map_slot; [side|]. apply wp_bind, wp_map_slot; [side|].
  apply wp_bind, (wp_get_rec _ _ rec_zero); [rewrite G1rec; reflexivity|].
  apply wp_bind, (wp_get_rd _ _ d); [rewrite G1rd; exact Ar|]. cbv zeta. apply wp_bind.
  set (S2 := upd (upd S1 SLOT_REC true) SLOT_RD true).
  assert (FIN2 : forall r, r <> RMI_SUCCESS ->
    (r = RMI_ERROR_INPUT \/
       (r = RMI_ERROR_REALM /\ exists d, is_rd G rd d /\ (rd_state d <> REALM_NEW \/ g_ref (G rd) = REFCOUNT_MAX))) ->
    wp (rec_create_bad (Some p)) (Ret (r, DELEGATED)) (mkS L2 S2 G1 V T) (fun a s' =>
      wp (rec_create_bad (Some p)) (unmap_slot SLOT_RD ;;; unmap_slot SLOT_REC ;;; Ret a) s' (fun a0 s'0 =>
        wp (rec_create_bad (Some p)) (granule_unlock rd ;;; granule_unlock_transition rec (snd a0) ;;; Ret (fst a0)) s'0 (fun a1 s'1 =>
          wp (rec_create_bad (Some p)) ((if negb (a1 =? RMI_SUCCESS) then free_rec_aux_granules aux 0 false else Ret tt) ;;; Ret a1) s'1 Q)))).
  { intros r Nr Fr. apply wp_ret. apply wp_bind, wp_unmap_slot; [unfold S2; side|]. apply wp_bind, wp_unmap_slot; [unfold S2; side|].
    apply wp_ret. cbn [fst snd]. apply FIN; try assumption; try reflexivity. unfold S2. lk. }
  destruct (N.eqb_spec (rd_state d) REALM_NEW) as [Nw|Nw]; cbn [negb].
  2:{ apply FIN2; [discriminate|]. right. split; [reflexivity|]. exists d. auto. }
  destruct (rec_mpidr_is_valid (rp_mpidr p)) eqn:Hmv; cbn [negb orb]; [|apply FIN2; [discriminate|auto]].
  destruct (N.eqb_spec (rd_rec_count d) (rec_mpidr_to_idx (rp_mpidr p))) as [Hidx|]; cbn [negb]; [|apply FIN2; [discriminate|auto]].
  destruct (N.eqb_spec (N.of_nat (length aux)) (rd_num_rec_aux d)) as [Hlen|]; cbn [negb]; [|apply FIN2; [discriminate|auto]].
  clear FIN FIN2.
  pose proof (rd_state_ok _ _ _ _ I _ _ R) as RO. pose proof RO as (K1 & K2 & K3 & K4).
  assert (La : length aux = 16%nat) by (rewrite K4 in Hlen; change MAX_REC_AUX_GRANULES with 16 in Hlen; lia).
  assert (Hnum : num = rd_num_rec_aux d).
  { rewrite <- Hlen. unfold aux, aux_list. rewrite map_length, seq_length. lia. }
  apply wp_bind, wp_assert.
  { unfold vtcr_sl_ok. destruct K1 as (K1 & _). change S2TT_PAGE_LEVEL with 3%Z. lia. }
  set (rc := new_rec _ _ _ _ _ _ _).
  set (d1 := if r_runnable rc then _ else d).
  apply wp_bind, wp_put_rec. apply wp_bind, wp_atomic_get; [rewrite HL2; side|updsimp; rewrite G1rd; exact Bmax|].
  apply wp_bind, wp_aux_init; [exact La| |].
  { intro k. unfold S2, upd, SLOT_RD, SLOT_REC, SLOT_REC_AUX0.
    destruct (N.eqb_spec (6 + k) 2); [lia|]. destruct (N.eqb_spec (6 + k) 3); [lia|]. apply HS1. }
  intros S3 HS3. apply wp_bind, wp_put_rd. apply wp_ret.
  apply wp_bind, wp_unmap_slot; [rewrite HS3; unfold S2; side|].
  apply wp_bind, wp_unmap_slot; [rewrite upd_other by discriminate; rewrite HS3; unfold S2; side|].
  apply wp_ret. cbn [fst snd].
  apply wp_bind, wp_granule_unlock; [rewrite HL2; side|unfold uok; updsimp; rewrite G1rd, Srd; reflexivity|].
  apply wp_bind, wp_unlock_transition; [rewrite upd_other by assumption; rewrite HL2; side|updsimp; rewrite G1rec; reflexivity|].
  apply wp_ret. cbn [N.eqb RMI_SUCCESS negb]. apply wp_bind, wp_ret. apply wp_ret.
  unfold Q. clear BACK.
  eapply post_ok.
  - lk.
  - intro z. unfold upd. destruct (z =? SLOT_REC) eqn:Z1; [reflexivity|]. destruct (z =? SLOT_RD) eqn:Z2; [reflexivity|].
    rewrite HS3. unfold S2, upd. rewrite Z1, Z2. apply HS1.
  - eapply geffs_one. eapply (g_rec_create c gh G V rd d (created_rec_rd c d p (r_runnable rc)) rec rc).
    + exact R.
    + apply created_rec_le, RO.
    + unfold created_rec_rd. destruct (r_runnable rc); reflexivity.
    + exact Bmax.
    + exact Src.
    + change (r_aux rc) with aux. intros z Hz. split; [apply HA, Hz|]. intros ->. apply memN_out in Mrec. contradiction.
    + reflexivity.
    + reflexivity.
    + apply new_rec_ok; try assumption.
    + updsimp. rewrite G1rd, Srd. reflexivity.
    + updsimp. rewrite G1rec. reflexivity.
    + change (r_aux rc) with aux. intros z Hz. assert (z <> rec) by (intros ->; apply memN_out in Mrec; contradiction).
      assert (z <> rd) by (intros ->; apply memN_out in Mrd; contradiction).
      updsimp. rewrite HG1. apply memN_in in Hz. rewrite Hz. eexists. reflexivity.
    + change (r_aux rc) with aux. intros z n1 n2 Nz. updsimp. rewrite HG1. apply memN_out in Nz. rewrite Nz. reflexivity.
  - instantiate (1 := []). reflexivity.
  - split; [reflexivity|]. exists p, d, rc. repeat (split; [first [reflexivity | assumption | symmetry; assumption]|]). reflexivity.
Qed.

Lemma rec_of_state : forall a, g_state (G a) = REC -> exists rc d, is_rec G a rc /\ as_rec (g_mem (G a)) = Some rc /\
  is_rd G (r_g_rd rc) d /\ rec_ok c d rc /\ g_ref (G a) <= 1.
Proof.
  intros a H. destruct (i_rec _ _ _ _ I _ H) as (H1 & rc & d & M & R & O & _). exists rc, d.
  split; [split; assumption|]. split; [rewrite M; reflexivity|]. auto.
Qed.

Lemma wp_rec_destroy : forall rec,
  wp False (smc_rec_destroy c rec) (mkS L S G V T) (fun r s' =>
    cmd_post c gh G V T r
      ((r = RMI_ERROR_INPUT /\ g_state (G rec) <> REC) \/ (r = RMI_ERROR_REC /\ g_state (G rec) = REC /\ g_ref (G rec) <> 0))
      (fun gh' labs inv => inv = [] /\ exists rc, is_rec G rec rc /\ g_ref (G rec) = 0 /\
         labs = [LRecDestroy (r_g_rd rc) rec rc]) s').
Proof.
  intros rec. pose proof (inv_uok _ _ _ _ I) as U.
  unfold smc_rec_destroy. apply wp_bind, wp_find_lock_unused; [apply HL|apply U| | |].
  2:{ intros L' HL' K. apply wp_ret. apply post_fail; try assumption; try discriminate; try reflexivity; [lk|].
      left. split; [reflexivity|]. intro K2. pose proof (i_gran _ _ _ _ I rec ltac:(rewrite K2; discriminate)). destruct K; congruence. }
  2:{ intros L' HL' _ Sr Nr. apply wp_ret. apply post_fail; try assumption; try discriminate; try reflexivity; auto. lk. }
  intros F Sr Rf. destruct (i_rec _ _ _ _ I _ Sr) as (_ & rc & d & M & R & O & Inr & Aux).
  set (rd := r_g_rd rc) in *.
  apply wp_bind, wp_map_slot; [side|]. apply wp_bind, (wp_get_rec _ _ rc); [rewrite M; reflexivity|].
  pose proof O as (_ & _ & _ & _ & _ & _ & _ & _ & _ & _ & ND & _).
  assert (SA : forall z, In z (r_aux rc) -> g_state (G z) = REC_AUX /\ g_ref (G z) = 0 /\ exists f, g_mem (G z) = CW f).
  { intros z Hz. destruct (i_auxo _ _ _ _ I _ _ (Aux z Hz)) as (Sz & _). destruct (i_aux _ _ _ _ I _ Sz) as (Rz & Mz & _). auto. }
  pose proof R as [Srd Mrd].
  assert (Nrec : memN rec (r_aux rc) = false).
  { apply memN_out. intro K. destruct (SA _ K) as (K1 & _). congruence. }
  assert (Nrd : memN rd (r_aux rc) = false).
  { apply memN_out. intro K. destruct (SA _ K) as (K1 & _). congruence. }
  assert (Ne : rec <> rd) by congruence.
  apply wp_bind, wp_free_aux; [exact ND| | |].
  { intro k. rewrite upd_other by (unfold SLOT_REC, SLOT_REC_AUX0; lia). apply HS. }
  { intros g Hg. destruct (SA _ Hg) as (K1 & K2 & _). rewrite upd_other by congruence. auto. }
  intros L1 S1 G1 HL1 HS1 HG1.
  assert (G1rec : G1 rec = mkG REC 0 (CRec rc)).
  { rewrite HG1, Nrec. destruct (G rec); cbn in *; congruence. }
  assert (G1rd : G1 rd = G rd) by (rewrite HG1, Nrd; reflexivity).
  apply wp_bind, wp_memzero_mapped. apply wp_bind, wp_unmap_slot; [rewrite HS1; side|].
  apply wp_bind, wp_unlock_transition; [rewrite HL1; side|updsimp; rewrite G1rec; reflexivity|].
  apply wp_bind, wp_put_release.
  { fold rd. updsimp. rewrite G1rd. destruct (i_rd _ _ _ _ I _ Srd) as (d0 & _ & _ & Rr). rewrite Rr.
    destruct (recs gh rd); [destruct Inr|cbn [length]; lia]. }
  apply wp_ret. eapply post_ok.
  - lk.
  - lk.
  - eapply geffs_one, (g_rec_destroy c gh G V rec rc d).
    + split; assumption.
    + exact R.
    + exact Rf.
    + fold rd. updsimp. rewrite G1rd, Srd, Mrd. reflexivity.
    + updsimp. rewrite G1rec. reflexivity.
    + intros z Hz. destruct (SA _ Hz) as (K1 & _). assert (z <> rec) by congruence. assert (z <> rd) by congruence.
      fold rd. updsimp. rewrite HG1. apply memN_in in Hz. rewrite Hz. reflexivity.
    + fold rd. intros z n1 n2 Hz. updsimp. rewrite HG1. apply memN_out in Hz. rewrite Hz. reflexivity.
  - instantiate (1 := []). reflexivity.
  - split; [reflexivity|]. exists rc. split; [split; assumption|]. auto.
Qed.

Lemma wp_rec_aux_count : forall rd,
  wp False (smc_rec_aux_count c rd) (mkS L S G V T) (fun r s' =>
    cmd_post c gh G V T (x0 r) (x0 r = RMI_ERROR_INPUT /\ ~ exists d, is_rd G rd d)
      (fun gh' labs inv => inv = [] /\ labs = [] /\ exists d, is_rd G rd d /\ x1 r = rd_num_rec_aux d) s').
Proof.
  intros rd. unfold smc_rec_aux_count. apply wp_bind, wp_find_lock; [apply HL|apply (inv_uok _ _ _ _ I)| |].
  2:{ intros L' HL' K. apply wp_ret. apply post_fail; try assumption; try discriminate; try reflexivity; [lk|].
      split; [reflexivity|]. intros (d & R). apply (no_rd _ _ _ _ I rd (fun _ => True) K). exists d. auto. }
  intros F Sr. cbn [negb]. apply wp_bind, wp_map_slot; [side|].
  destruct (rd_of_state _ _ _ _ I rd Sr) as (d & R & Ar).
  apply wp_bind. eapply wp_get_rd; [exact Ar|]. apply wp_bind, wp_unmap_slot; [side|].
  apply wp_bind, wp_granule_unlock; [side|apply (inv_uok _ _ _ _ I)|]. apply wp_ret.
  eapply post_ok; [lk|lk|apply gs_nil; [reflexivity|reflexivity]|instantiate (1 := []); reflexivity|].
  split; [reflexivity|]. split; [reflexivity|]. exists d. auto.
Qed.

(** PSCI_COMPLETE fails an assertion when the pending request names the target
    but is none of the four requests that leave a pending state *)
Definition psci_bad (calling target : N) : Prop :=
  exists rc rt, is_rec G calling rc /\ is_rec G target rt /\ r_psci_pending rc = true /\ r_g_rd rc = r_g_rd rt /\
    mpidr_to_rec_idx (r_regs rc 1) = r_idx rt /\
    ~ In (r_regs rc 0) [SMC32_PSCI_CPU_ON; SMC64_PSCI_CPU_ON; SMC32_PSCI_AFFINITY_INFO; SMC64_PSCI_AFFINITY_INFO].

(** Changes of a REC that commands and the monitor make freely *)
Definition rec_same (r r' : recd) : Prop :=
  r_g_rd r' = r_g_rd r /\ r_idx r' = r_idx r /\ r_aux r' = r_aux r /\ forall d, rec_ok c d r -> rec_ok c d r'.
Lemma rec_same_refl : forall r, rec_same r r.
Proof. intro r. unfold rec_same. auto. Qed.

Lemma psci_complete_same : forall r t u st ret r' t',
  psci_complete_request r t u st = Some (ret, r', t') -> rec_same r r' /\ rec_same t t'.
Proof.
  intros r t u st ret r' t' H. unfold psci_complete_request in H. cbv zeta in H.
  assert (P : forall v, rec_same r (finish_psci r v)).
  { intro v. unfold rec_same. repeat (split; [reflexivity|]). intros d O. exact O. }
  assert (K : forall e x sc s, rec_same t (fst (complete_psci_cpu_on t u e x sc s))).
  { intros. unfold complete_psci_cpu_on. destruct (u || r_runnable t); [apply rec_same_refl|].
    destruct (s =? PSCI_RETURN_DENIED); [apply rec_same_refl|]. cbn [fst].
    unfold rec_same. repeat (split; [reflexivity|]). intros d O. exact O. }
  repeat match type of H with
  | (if ?b then _ else _) = _ => destruct b
  end; try discriminate; injection H as <- <- <-; split; auto using rec_same_refl.
Qed.

Lemma psci_complete_none : forall r t u st, psci_complete_request r t u st = None ->
  r_psci_pending r = true /\ r_g_rd r = r_g_rd t /\ mpidr_to_rec_idx (r_regs r 1) = r_idx t /\
  ~ In (r_regs r 0) [SMC32_PSCI_CPU_ON; SMC64_PSCI_CPU_ON; SMC32_PSCI_AFFINITY_INFO; SMC64_PSCI_AFFINITY_INFO].
Proof.
  intros r t u st H. unfold psci_complete_request in H. cbv zeta in H.
  destruct (r_psci_pending r); cbn [negb] in H; [|discriminate].
  destruct (N.eqb_spec (r_g_rd r) (r_g_rd t)); cbn [negb] in H; [|discriminate].
  destruct (N.eqb_spec (mpidr_to_rec_idx (r_regs r 1)) (r_idx t)); cbn [negb] in H; [|discriminate].
  destruct (N.eqb_spec (r_regs r 0) SMC32_PSCI_CPU_ON); cbn [orb] in H;
    [destruct (negb (st =? PSCI_RETURN_SUCCESS) && negb (st =? PSCI_RETURN_DENIED)); discriminate|].
  destruct (N.eqb_spec (r_regs r 0) SMC64_PSCI_CPU_ON); cbn [orb] in H;
    [destruct (negb (st =? PSCI_RETURN_SUCCESS) && negb (st =? PSCI_RETURN_DENIED)); discriminate|].
  destruct (N.eqb_spec (r_regs r 0) SMC32_PSCI_AFFINITY_INFO); cbn [orb] in H;
    [destruct (negb (st =? PSCI_RETURN_SUCCESS)); discriminate|].
  destruct (N.eqb_spec (r_regs r 0) SMC64_PSCI_AFFINITY_INFO); cbn [orb] in H;
    [destruct (negb (st =? PSCI_RETURN_SUCCESS)); discriminate|].
  repeat (split; [assumption || reflexivity|]). cbn [In]. intuition congruence.
Qed.

(** PSCI_COMPLETE can fail and still answer the request, so its effect does not
    follow the pattern of the other commands *)
Definition psci_post (calling target status : N) (r : N) (s' : state) : Prop :=
  quiet s' /\ s_tlb s' = T /\
  ((r = RMI_ERROR_INPUT /\ (forall z, s_gr s' z = G z) /\ (forall z, s_vmids s' z = V z)) \/
   (exists rc rt rc' rt' gh', calling <> target /\ is_rec G calling rc /\ is_rec G target rt /\ g_ref (G calling) = 0 /\
      psci_complete_request rc rt (negb (g_ref (G target) =? 0)) status = Some (r, rc', rt') /\
      geffs c gh G V [LRec target rt rt' (g_ref (G target)); LRec calling rc rc' 0] gh' (s_gr s') (s_vmids s'))).

Lemma wp_psci_complete : forall calling target status,
  wp (psci_bad calling target) (smc_psci_complete c calling target status) (mkS L S G V T)
     (psci_post calling target status).
Proof.
  intros ca ta st. pose proof (inv_uok _ _ _ _ I) as U.
  assert (FAIL : forall L' S' G', free L' -> free S' -> (forall z, G' z = G z) -> psci_post ca ta st RMI_ERROR_INPUT (mkS L' S' G' V T)).
  { intros. split; [split; assumption|]. split; [reflexivity|]. left. repeat split; assumption. }
  unfold smc_psci_complete.
  destruct (is_aligned_granule ca); cbn [negb]; [|apply wp_ret, FAIL; auto].
  destruct (is_aligned_granule ta); cbn [negb]; [|apply wp_ret, FAIL; auto].
  apply wp_bind, wp_find_lock_two; [exact HL|exact U| |].
  2:{ intros L' HL' _. cbn [negb]. apply wp_ret, FAIL; auto; lk. }
  intros L1 HL1 Ne Fc Ft Sc St. cbn [negb].
  apply wp_bind, wp_refcount_read; [rewrite HL1; side|]. apply wp_bind.
  destruct (rec_of_state _ Sc) as (rc & dc & Rc & Ac & Rdc & Oc & _).
  destruct (rec_of_state _ St) as (rt & dt & Rt & At & Rdt & Ot & Bt).
  destruct (N.eqb_spec (g_ref (G ca)) 0) as [Zc|Zc]; cbn [negb].
  2:{ apply wp_ret. apply wp_bind, wp_granule_unlock; [rewrite HL1; side|apply U|].
      apply wp_bind, wp_granule_unlock; [rewrite upd_other by congruence; rewrite HL1; side|apply U|].
      apply wp_ret, FAIL; auto; lk. }
  apply wp_bind, wp_map_slot; [side|]. apply wp_bind, wp_map_slot; [side|].
  apply wp_bind, (wp_get_rec _ _ rc); [exact Ac|]. apply wp_bind, (wp_get_rec _ _ rt); [exact At|].
  apply wp_bind, wp_refcount_read; [rewrite HL1; side|]. apply wp_bind.
  destruct (psci_complete_request rc rt (negb (g_ref (G ta) =? 0)) st) as [[[ret rc'] rt']|] eqn:PC.
  2:{ unfold wp. cbn. apply psci_complete_none in PC. destruct PC as (P1 & P2 & P3 & P4). exists rc, rt. auto 10. }
  destruct (psci_complete_same _ _ _ _ _ _ _ PC) as ((A1 & A2 & A3 & A4) & (B1 & B2 & B3 & B4)).
  apply wp_bind, wp_put_rec. apply wp_bind, wp_put_rec. apply wp_ret.
  apply wp_bind, wp_unmap_slot; [side|]. apply wp_bind, wp_unmap_slot; [side|]. apply wp_ret.
  pose proof Rc as [_ Mc]. pose proof Rt as [_ Mt].
  apply wp_bind, wp_granule_unlock; [rewrite HL1; side|unfold uok; updsimp; apply U|].
  apply wp_bind, wp_granule_unlock; [rewrite upd_other by congruence; rewrite HL1; side|unfold uok; updsimp; apply U|].
  apply wp_ret. split; [split; cbn [s_locks s_slots]; lk|]. split; [reflexivity|]. right.
  exists rc, rt, rc', rt', gh. split; [exact Ne|]. split; [exact Rc|]. split; [exact Rt|]. split; [exact Zc|]. split; [exact PC|].
  cbn [s_gr s_vmids].
  eapply gs_cons with (V1 := V); [|eapply geffs_one].
  - eapply (g_rec c gh G V ta rt rt' (g_ref (G ta)) (upd G ta (mkG REC (g_ref (G ta)) (CRec rt')))); try assumption.
    + intros d0 _ O0. apply B4, O0.
    + updsimp. reflexivity.
    + intros z nz. updsimp. reflexivity.
  - eapply (g_rec c gh _ V ca rc rc' 0); try assumption.
    + split; updsimp; assumption.
    + intros d0 _ O0. apply A4, O0.
    + lia.
    + updsimp. rewrite Sc, Zc. reflexivity.
    + intros z nz. updsimp. unfold upd. destruct (N.eqb_spec z ta) as [->|]; [|reflexivity].
      rewrite St. reflexivity.
Qed.
End Cmd.
