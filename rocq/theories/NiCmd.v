(** The commands behave alike in states that agree in what is public. *)
From Coq Require Import NArith ZArith List Bool Lia.
From Verif Require Import Bits S2tte State Granule RecFields Measure RmiGranule RmiRtt RmiRealm Psci RmiRec Machine SpecAgree Ni.
Import ListNotations.
Local Open Scope N_scope.

Ltac inp :=
  match goal with
  | |- In ?g (?h :: ?l) => first [left; reflexivity | right; inp]
  | S : incl _ ?L |- In _ ?L => apply S; inp
  | _ => assumption
  end.
Ltac head_of p := lazymatch p with ?f _ => head_of f | ?f => f end.
Ltac plain1 :=
  lazymatch goal with |- plain ?p =>
  let h := head_of p in
  lazymatch h with
  | @addr_to_granule => apply l_addr_to_granule
  | @s2tte_pa_ => apply l_pa
  | @addr_lvl_aligned_ => apply l_aligned
  | @granule_get_state => apply l_state
  | @assert_unlocked_invariants => apply l_inv
  | @granule_unlock => apply l_unlock
  | @unlock_all => apply l_unlock_all
  | @granule_refcount_inc => apply l_inc
  | @granule_refcount_dec => apply l_dec
  | @atomic_granule_get => apply l_inc
  | @atomic_granule_put => apply l_dec
  | @atomic_granule_put_release => apply l_put_release
  | @granule_refcount_read_acquire => apply l_ref_read
  | @validate_map_addr => apply l_map_addr
  | @validate_rtt_structure_cmds => apply l_structure
  | @validate_rtt_map_cmds => apply l_mapc
  | @validate_rtt_entry_cmds => apply l_entryc
  | @s2tte_create_assigned_ns_ => apply l_create_ns
  | @read_entry_result => apply l_read_entry
  | @validate_data_create_unknown => apply l_unknown
  | @validate_data_create => apply l_data
  | @update_ripas => apply l_update
  | @s2tt_invalidate_page => exact I
  | @s2tt_invalidate_block => exact I
  | @s2tt_invalidate_pages_in_block => exact I
  | @vmid_reserve => apply l_reserve
  | @vmid_free => apply l_vfree
  | @get_realm_params => apply l_rparams
  | @validate_realm_params => apply l_vparams
  | @rec_aux_granules_init => apply l_aux_init
  | @total_root_rtt_refcount => apply l_total
  | @map_slot => exact I
  | @unmap_slot => exact I
  | @rd_state_ => intros ?; exact I
  | @rd_ref => intros ?; exact I
  | @assert_locked => exact I
  end end.

(** The checks of a command do not use the measurements. *)
Lemma m_structure : forall a l d mm, validate_rtt_structure_cmds a l (with_meas d mm) = validate_rtt_structure_cmds a l d.
Proof. reflexivity. Qed.
Lemma m_mapc : forall a l d mm, validate_rtt_map_cmds a l (with_meas d mm) = validate_rtt_map_cmds a l d.
Proof. reflexivity. Qed.
Lemma m_entryc : forall a l d mm, validate_rtt_entry_cmds a l (with_meas d mm) = validate_rtt_entry_cmds a l d.
Proof. reflexivity. Qed.
Lemma m_map_addr : forall a l d mm, validate_map_addr a l (with_meas d mm) = validate_map_addr a l d.
Proof. reflexivity. Qed.
Lemma m_unknown : forall a d mm, validate_data_create_unknown a (with_meas d mm) = validate_data_create_unknown a d.
Proof. reflexivity. Qed.
Lemma m_data : forall a d mm, validate_data_create a (with_meas d mm) = validate_data_create a d.
Proof. reflexivity. Qed.
Lemma m_in_par : forall a d mm, addr_in_par (with_meas d mm) a = addr_in_par d a.
Proof. reflexivity. Qed.
Lemma m_ctx : forall d mm, rd_ctx (with_meas d mm) = rd_ctx d.
Proof. reflexivity. Qed.
Lemma m_state : forall d mm, rd_state (with_meas d mm) = rd_state d.
Proof. reflexivity. Qed.
Lemma m_count : forall d mm, rd_rec_count (with_meas d mm) = rd_rec_count d.
Proof. reflexivity. Qed.
Lemma m_num_aux : forall d mm, rd_num_rec_aux (with_meas d mm) = rd_num_rec_aux d.
Proof. reflexivity. Qed.
Lemma m_alg : forall d mm, rd_algorithm (with_meas d mm) = rd_algorithm d.
Proof. reflexivity. Qed.
Ltac norm :=
  rewrite ?m_structure, ?m_mapc, ?m_entryc, ?m_map_addr, ?m_unknown, ?m_data, ?m_in_par, ?m_ctx, ?m_state, ?m_count, ?m_num_aux, ?m_alg.

Ltac nstep :=
  cbv beta iota zeta; cbn [negb andb orb fst snd];
  lazymatch goal with
  | |- ni _ _ (bind _ _) (bind _ _) _ => apply ni_bind
  | |- ni _ _ (Ret _) (Ret _) _ => apply ni_ret
  | |- ni _ _ Panic Panic _ => exact I
  | |- ni _ _ (assert_ _) (assert_ _) _ => apply n_assert; let A := fresh "A" in (intros A; try discriminate A)
  | |- ni _ _ (if ?b then _ else _) _ _ => destruct b
  | |- ni _ _ (match ?b with _ => _ end) _ _ => destruct b
  | |- ni _ _ (find_lock_two_granules _ _ _ _ _) _ _ =>
      apply n_find_two; [reflexivity|reflexivity| |let L := fresh "L" in let S := fresh "S" in intros L S ?]
  | |- ni _ _ (find_lock_granule _ _ DATA) _ _ => apply n_find_any
  | |- ni _ _ (find_lock_granule _ _ _) _ _ => apply n_find_lock; [reflexivity| |]
  | |- ni _ _ (find_lock_unused_granule _ _ _) _ _ => apply n_find_unused; [reflexivity| | |]
  | |- ni _ _ (granule_lock _ _) _ _ => apply n_lock; [reflexivity|]
  | |- ni _ _ (granule_unlock_transition _ _) _ _ => apply n_transition; [first [left; reflexivity | right; inp]|]
  | |- ni _ _ (granule_set_state _ _) _ _ => apply n_set_state; [first [left; reflexivity | right; inp]|]
  | |- ni _ _ (put_rd _ _) _ _ => apply n_put_rd2; [reflexivity|]
  | |- ni _ _ (wr_mem _ (CW _)) _ _ => apply n_words; [reflexivity|]
  | |- ni _ _ (granule_memzero_mapped _) _ _ => apply n_memzero_mapped
  | |- ni _ _ (buffer_granule_memzero _ _) _ _ => apply n_memzero
  | |- ni _ _ (rd_word _ _) _ _ => apply n_rd_word; [inp|intros ?]
  | |- ni _ _ (wr_word _ _ _) _ _ => apply n_wr_word; [inp|]
  | |- ni _ _ (get_rd _) _ _ => apply n_get_rd; [inp|intros ? ?; norm]
  | |- ni _ _ (get_table _) _ _ => apply n_get_table; [inp|intros ? ? ?]
  | |- ni _ _ (s2tt_walk_lock_unlock _ _ _ _) _ _ => apply n_walk; [inp|let L := fresh "L" in let S := fresh "S" in intros ? L S]
  | |- ni _ _ (s2tt_init_assigned_ _ _ _ _ _) _ _ => unfold s2tt_init_assigned_
  | |- ni _ _ (s2tt_init_assigned_ns_ _ _ _ _ _) _ _ => unfold s2tt_init_assigned_ns_
  | |- ni _ _ (s2tt_skip_non_live_entries_ _ _ _ _) _ _ => apply n_skip; [assumption|intros ?]
  | |- ni _ _ (fold_parent_s2tte _ _ _ _ _ _) _ _ => apply n_fold_parent; [assumption|intros ?]
  | |- ni _ _ _ _ _ => apply plain_ni; [plain1|intros ?]
  end.
Ltac dif := lazymatch goal with |- Ni.ni _ _ (if ?b then _ else _) _ _ => destruct b end.
Ltac nsteps := repeat nstep; try reflexivity.

Definition same_ {A} : list N -> A -> A -> Prop := fun _ a a' => a = a'.

Section Cmds.
Variable J : recd -> Prop.
Hypothesis J0 : J rec_zero.
Notation ni := (ni J).

Lemma k_delegate : forall c b a, ni [] (smc_granule_delegate c b a) (smc_granule_delegate c b a) same_.
Proof. intros. unfold smc_granule_delegate. nsteps. Qed.
Lemma k_undelegate : forall c b a, ni [] (smc_granule_undelegate c b a) (smc_granule_undelegate c b a) same_.
Proof. intros. unfold smc_granule_undelegate. nsteps. Qed.
Lemma k_activate : forall c a, ni [] (smc_realm_activate c a) (smc_realm_activate c a) same_.
Proof. intros. unfold smc_realm_activate. nsteps. Qed.
Lemma k_aux_count : forall c a, ni [] (smc_rec_aux_count c a) (smc_rec_aux_count c a) same_.
Proof. intros. unfold smc_rec_aux_count. nsteps. Qed.
Lemma k_rtt_create : forall c a b d e, ni [] (smc_rtt_create c a b d e) (smc_rtt_create c a b d e) same_.
Proof. intros. unfold smc_rtt_create. nsteps. Qed.
Lemma k_read_entry : forall c a b d, ni [] (smc_rtt_read_entry c a b d) (smc_rtt_read_entry c a b d) same_.
Proof. intros. unfold smc_rtt_read_entry. nsteps. Qed.
Lemma k_rtt_destroy : forall c a b d, ni [] (smc_rtt_destroy c a b d) (smc_rtt_destroy c a b d) same_.
Proof. intros. unfold smc_rtt_destroy. nsteps. Qed.
Lemma k_fold : forall c a b d, ni [] (smc_rtt_fold c a b d) (smc_rtt_fold c a b d) same_.
Proof. intros. unfold smc_rtt_fold. nsteps. Qed.
Lemma k_map_ns : forall c a b d e, ni [] (map_unmap_ns c a b d e) (map_unmap_ns c a b d e) same_.
Proof. intros. unfold map_unmap_ns. nsteps. Qed.
Lemma k_data_destroy : forall c a b, ni [] (smc_data_destroy c a b) (smc_data_destroy c a b) same_.
Proof. intros. unfold smc_data_destroy. nsteps. Qed.
Lemma k_map : forall c a b d e, ni [] (smc_rtt_map_unprotected c a b d e) (smc_rtt_map_unprotected c a b d e) same_.
Proof.
  intros. unfold smc_rtt_map_unprotected. cbv zeta. destruct (_ || _); [apply ni_ret; reflexivity|]. apply ni_bind.
  eapply ni_conseq; [apply k_map_ns|]. intros L x x' ->. apply ni_ret. reflexivity.
Qed.
Lemma k_unmap : forall c a b d, ni [] (smc_rtt_unmap_unprotected c a b d) (smc_rtt_unmap_unprotected c a b d) same_.
Proof. intros. unfold smc_rtt_unmap_unprotected. cbv zeta. destruct (_ || _); [apply ni_ret; reflexivity|]. apply k_map_ns. Qed.

(** The contents the host provides are the same in both runs. *)
Definition same_src (x x' : option (option (N -> N) * N)) : Prop :=
  match x, x' with
  | None, None => True
  | Some (None, f), Some (None, f') => f = f'
  | Some (Some d, f), Some (Some d', f') => f = f' /\ forall i, d i = d' i
  | _, _ => False
  end.
Lemma k_data_create : forall c a b d x x' P, same_src x x' -> ni P (data_create c a b d x) (data_create c a b d x') same_.
Proof.
  intros c a b d x x' P E. unfold data_create.
  destruct x as [[[f|] fl]|]; destruct x' as [[[f'|] fl']|]; cbn in E; try contradiction.
  - destruct E as (-> & E). repeat (try (apply n_words; [exact E|]); nstep); try reflexivity.
  - subst fl'. nsteps.
  - nsteps.
Qed.
Lemma k_data_create_unknown : forall c a b d, ni [] (smc_data_create_unknown c a b d) (smc_data_create_unknown c a b d) same_.
Proof. intros. apply k_data_create. exact I. Qed.

Lemma n_init_ripas_loop : forall c llt alg top sz f i a rim rim' P (Q : list N -> N * N -> N * N -> Prop), In llt P ->
  (forall z w w', Q P (z, w) (z, w')) -> ni P (init_ripas_loop f c llt alg top sz i a rim) (init_ripas_loop f c llt alg top sz i a rim') Q.
Proof.
  intros c llt alg top sz f. induction f as [|f IH]; intros i a rim rim' P Q K H; cbn [init_ripas_loop].
  - apply ni_ret, H.
  - cbv zeta. destruct (_ <? _); [apply ni_ret, H|]. apply ni_bind, n_rd_word; [exact K|]. intros w.
    destruct (s2tte_is_unassigned_empty w).
    + apply ni_bind, n_wr_word; [exact K|]. apply IH; assumption.
    + destruct (negb _); [apply ni_ret, H|]. apply IH; assumption.
Qed.
Lemma k_init_ripas : forall c a b d, ni [] (smc_rtt_init_ripas c a b d) (smc_rtt_init_ripas c a b d) same_.
Proof.
  intros. unfold smc_rtt_init_ripas.
  repeat (try (apply n_init_ripas_loop; [inp|intros ? ? ?]); nstep); try reflexivity.
Qed.

Lemma n_set_ripas_loop : forall x llt l top v ch f i a P (Q : list N -> N -> N -> Prop), In llt P ->
  (forall z, Q P z z) -> ni P (set_ripas_loop f x llt l top v ch i a) (set_ripas_loop f x llt l top v ch i a) Q.
Proof.
  intros x llt l top v ch f. induction f as [|f IH]; intros i a P Q K H; cbn [set_ripas_loop].
  - apply ni_ret, H.
  - cbv zeta. destruct (_ <? _); [apply ni_ret, H|]. apply ni_bind, n_rd_word; [exact K|]. intros w.
    apply ni_bind, plain_ni; [apply l_update|]. intros u. destruct u as [| |nw t]; [apply ni_ret, H|apply IH; assumption|].
    apply ni_bind, n_wr_word; [exact K|]. apply ni_bind, plain_ni; [destruct t; [destruct (_ =? _)%Z|]; exact I|]. intros _. apply IH; assumption.
Qed.
Lemma n_set_ripas_range : forall x b t wi v ch P (Q : list N -> res -> res -> Prop), In (w_llt wi) P ->
  (forall z, Q P z z) -> ni P (rtt_set_ripas_range x b t wi v ch) (rtt_set_ripas_range x b t wi v ch) Q.
Proof.
  intros x b t wi v ch P Q K H. unfold rtt_set_ripas_range. cbv zeta. destruct (negb _); [apply ni_ret, H|].
  apply ni_bind. apply n_set_ripas_loop; [exact K|]. intros z. destruct (_ <? _); apply ni_ret, H.
Qed.

(** Fields of RECs that agree *)
Lemma agree_fields : forall r r', rec_agree r r' -> r_g_rd r' = r_g_rd r /\ r_aux r' = r_aux r /\ r_set_ripas r' = r_set_ripas r /\
  r_idx r' = r_idx r /\ r_runnable r' = r_runnable r /\ r_psci_pending r' = r_psci_pending r /\ r_host_call r' = r_host_call r.
Proof. intros r r' (E & _). unfold rec_public in E. repeat split; congruence. Qed.

Lemma agree_req : forall r r' q, rec_agree r r' -> rec_agree (set_req r q) (set_req r' q).
Proof.
  intros r r' q (E & F). split; [|exact F]. unfold rec_public in *. cbn.
  assert (E1 : (r_idx r, r_runnable r, (r_vttbr r, r_vtcr r, r_common_hcr r, r_mdcr r)) = (r_idx r', r_runnable r', (r_vttbr r', r_vtcr r', r_common_hcr r', r_mdcr r'))) by congruence.
  congruence.
Qed.
Lemma k_set_ripas : (forall r q, J r -> J (set_req r q)) -> forall c a b d e, ni [] (smc_rtt_set_ripas c a b d e) (smc_rtt_set_ripas c a b d e) same_.
Proof.
  intros HJ c a b d e. unfold smc_rtt_set_ripas.
  repeat (try (apply (n_get_rec J J0); [inp|let r := fresh "r" in let r' := fresh "r'" in let A := fresh "A" in let Z := fresh "Z" in intros r r' A Z;
               destruct (agree_fields _ _ A) as (F1 & F2 & F3 & F4 & F5 & F6 & F7); rewrite ?F1, ?F3]);
          try (apply n_set_ripas_range; [inp|intros ?]);
          try (apply n_put_rec; [apply agree_req; assumption|apply HJ; assumption|]);
          nstep); try reflexivity.
Qed.

Lemma n_free_sl : forall l P (Q : list N -> unit -> unit -> Prop), Q P tt tt -> ni P (free_sl_rtts l) (free_sl_rtts l) Q.
Proof.
  intros l. induction l as [|g l IH]; intros P Q K; cbn [free_sl_rtts]; [apply ni_ret, K|].
  nstep. nstep. nstep. nstep. nstep. nstep.
  apply (ni_mono _ _ _ _ _ P); [intros z Z; right; right; exact Z|]. apply IH, K.
Qed.
Lemma k_realm_destroy : forall c a, ni [] (smc_realm_destroy c a) (smc_realm_destroy c a) same_.
Proof.
  intros. unfold smc_realm_destroy.
  repeat (try (apply n_free_sl); nstep); try reflexivity.
Qed.

Lemma n_lock_roots : forall c l acc P (Q : list N -> bool * list N -> bool * list N -> Prop),
  (forall L k, incl P L -> Q L (false, k) (false, k)) -> (forall L, incl (l ++ P) L -> Q L (true, rev l ++ acc) (true, rev l ++ acc)) ->
  ni P (lock_roots c l acc) (lock_roots c l acc) Q.
Proof.
  intros c l. induction l as [|g l IH]; intros acc P Q F T; cbn [lock_roots].
  - apply ni_ret, T, incl_refl.
  - apply ni_bind. apply n_find_lock; [reflexivity|apply ni_ret, F, incl_refl|]. apply IH.
    + intros L k S. apply F. intros z Z. apply S. right. exact Z.
    + intros L S. replace (rev l ++ g :: acc) with (rev (g :: l) ++ acc) by (cbn; rewrite <- app_assoc; reflexivity). apply T.
      intros z Z. apply S. change (g = z \/ In z (l ++ P)) in Z. rewrite in_app_iff in *. cbn. tauto.
Qed.
Lemma n_find_rd : forall c a b n P (Q : list N -> bool -> bool -> Prop), Q P false false ->
  (forall L, incl (a :: root_list b n ++ P) L -> Q L true true) -> ni P (find_lock_rd_granules c a b n) (find_lock_rd_granules c a b n) Q.
Proof.
  intros c a b n P Q F T. unfold find_lock_rd_granules. cbv zeta. destruct (a <? b).
  - nstep. nstep; [nstep; exact F|]. cbn [negb]. apply ni_bind. apply n_lock_roots.
    + intros L k S. cbn [fst snd]. do 6 nstep. exists P. split; [|exact F]. intros z Z. apply S. right. exact Z.
    + intros L S. cbn [fst snd]. do 3 nstep. apply T. intros z Z. apply S. cbn in *. rewrite in_app_iff in *. cbn. tauto.
  - nstep. nstep. cbn [negb]. apply ni_bind. apply n_lock_roots.
    + intros L k S. cbn [fst snd]. do 6 nstep. exists P. split; [exact S|exact F].
    + intros L S. cbn [fst snd]. nstep. nstep.
      * do 4 nstep. exists P. split; [|exact F]. intros z Z. apply S, in_or_app. right. exact Z.
      * apply ni_ret, T. intros z [<-|Z]; [left; reflexivity|right; apply S, Z].
Qed.

Lemma root_words_ext : forall f par size step t t' i cur, (forall k : N, t k = t' k) ->
  let o := init_root_words f par size step t i cur in let o' := init_root_words f par size step t' i cur in
  (forall k, fst (fst o) k = fst (fst o') k) /\ snd (fst o') = snd (fst o) /\ snd o' = snd o.
Proof.
  intros f. induction f as [|f IH]; intros par size step t t' i cur E; cbn [init_root_words]; [auto|]. cbv zeta.
  assert (E' : forall v k, upd t i v k = upd t' i v k) by (intros v k; unfold upd; destruct (k =? i); auto).
  destruct (_ =? _); [cbn; auto|]. apply IH. intros k. apply E'.
Qed.
Lemma n_init_roots : forall n per par size step g cur P (Q : list N -> unit -> unit -> Prop),
  (forall i, i < N.of_nat n -> In (g + i * GRANULE_SIZE) P) -> (forall L, incl P L -> Q L tt tt) ->
  ni P (init_roots n per par size step g cur) (init_roots n per par size step g cur) Q.
Proof.
  intros n. induction n as [|n IH]; intros per par size step g cur P Q K H; cbn [init_roots]; [exact I|].
  nstep. nstep. apply ni_bind. apply n_get_table.
  { specialize (K 0). rewrite N.mul_0_l, N.add_0_r in K. apply K. lia. }
  intros t t' E. destruct (root_words_ext per par size step t t' 0 cur E) as (E1 & E2 & E3). cbv zeta.
  rewrite E2, E3. apply ni_bind, n_words; [exact E1|]. nstep. nstep. destruct (snd (init_root_words per par size step t 0 cur)).
  - apply ni_ret, H, incl_tl, incl_refl.
  - apply IH.
    + intros i Hi. right. replace (g + GRANULE_SIZE + i * GRANULE_SIZE) with (g + (i + 1) * GRANULE_SIZE) by (rewrite N.mul_add_distr_r; lia). apply K. lia.
    + intros L S. apply H. intros z Z. apply S. right. exact Z.
Qed.
Lemma in_roots : forall b n i, i < n -> In (b + i * GRANULE_SIZE) (root_list b n).
Proof.
  intros b n i H. unfold root_list. apply in_map_iff. exists (N.to_nat i). rewrite N2Nat.id. split; [reflexivity|]. apply in_seq. lia.
Qed.
Lemma n_transition_all : forall l st P (Q : list N -> unit -> unit -> Prop), incl l P -> Q P tt tt ->
  ni P (transition_all l st) (transition_all l st) Q.
Proof.
  intros l. induction l as [|g l IH]; intros st P Q K H; cbn [transition_all]; [apply ni_ret, H|].
  apply ni_bind. apply n_transition; [right; apply K; left; reflexivity|]. apply IH; [|exact H]. intros z Z. apply K. right. exact Z.
Qed.
Lemma k_realm_create : forall c p a pa, ni [] (smc_realm_create c p a pa) (smc_realm_create c p a pa) same_.
Proof.
  intros c p a pa. unfold smc_realm_create. nstep. nstep. destruct a0 as [q|]; [|apply ni_ret; reflexivity].
  nstep. nstep. nstep; [nstep; reflexivity|]. nstep; [nsteps|]. apply ni_bind. apply n_find_rd.
  { nsteps. }
  intros L S. cbn [negb]. nstep. nstep. apply ni_bind. apply n_get_rd; [inp|]. intros d mm. cbv zeta.
  apply ni_bind. apply n_put_rd2; [reflexivity|]. apply ni_bind. unfold init_s2_starting_level. cbv zeta.
  change (rd_ctx (new_rd (with_meas d mm) q)) with (rd_ctx (new_rd d q)).
  change (realm_par_size (new_rd (with_meas d mm) q)) with (realm_par_size (new_rd d q)).
  change (realm_ipa_size (new_rd (with_meas d mm) q)) with (realm_ipa_size (new_rd d q)).
  change (rd_algorithm (new_rd (with_meas d mm) q)) with (rd_algorithm (new_rd d q)).
  apply n_init_roots.
  { intros i Hi. cbn [new_rd rd_ctx num_root_rtts g_rtt] in *. right. apply S. right. apply in_or_app. left. apply in_roots. lia. }
  intros L' S'. apply ni_bind. apply n_put_rd2; [reflexivity|]. nstep. nstep. nstep. nstep. apply ni_bind. apply n_transition_all.
  { intros z Z. right. apply S'. right. apply S. right. apply in_or_app. left. exact Z. }
  apply ni_ret. reflexivity.
Qed.

(** ** RECs *)
Lemma n_free_aux : forall l i P (Q : list N -> unit -> unit -> Prop) b, b = true \/ incl l P -> Q P tt tt ->
  ni P (free_rec_aux_granules l i b) (free_rec_aux_granules l i b) Q.
Proof.
  intros l. induction l as [|g l IH]; intros i P Q b K H; cbn [free_rec_aux_granules]; [apply ni_ret, H|].
  apply ni_bind. apply plain_ni; [apply l_lock|intros _]. apply ni_bind. destruct b.
  - apply n_memzero. nstep. nstep. apply (ni_mono _ _ _ _ _ P); [apply incl_tl, incl_refl|]. apply IH; auto.
  - destruct K as [K|K]; [discriminate K|]. apply ni_ret. apply ni_bind. apply n_transition; [right; apply K; left; reflexivity|].
    apply IH; [right|exact H]. intros z Z. apply K. right. exact Z.
Qed.
Lemma k_rec_destroy : forall c a, ni [] (smc_rec_destroy c a) (smc_rec_destroy c a) same_.
Proof.
  intros c a. unfold smc_rec_destroy. nstep. nstep; [nstep; reflexivity|nstep; reflexivity|]. nstep. nstep. apply ni_bind.
  apply (n_get_rec J J0); [inp|]. intros r r' A _. destruct (agree_fields _ _ A) as (F1 & F2 & _). rewrite F1, F2.
  apply ni_bind. apply n_free_aux; [left; reflexivity|]. nsteps.
Qed.

Lemma n_acquire : forall c l done P (Q : list N -> bool -> bool -> Prop), incl done P ->
  (forall L, Q L false false) -> (forall L, incl (done ++ l) L -> incl P L -> Q L true true) -> ni P (acquire_aux c l done) (acquire_aux c l done) Q.
Proof.
  intros c l. induction l as [|a l IH]; intros done P Q K F T; cbn [acquire_aux].
  - apply ni_ret, T; [rewrite app_nil_r; exact K|apply incl_refl].
  - apply ni_bind. apply n_find_lock; [reflexivity| |]; cbn [negb].
    + nstep. nstep. apply ni_bind. apply n_free_aux; [right; exact K|]. apply ni_ret, F.
    + nstep. nstep. apply IH.
      * intros z Z. apply in_app_iff in Z. destruct Z as [Z|[<-|[]]]; [right; apply K, Z|left; reflexivity].
      * exact F.
      * intros L S S2. apply T; [|intros z Z; apply S2; right; exact Z]. rewrite <- app_assoc in S. exact S.
Qed.

Lemma agree_new : forall c r r' d mm a p i aux, rec_agree r r' -> rec_agree (new_rec c r d a p i aux) (new_rec c r' (with_meas d mm) a p i aux).
Proof.
  intros c r r' d mm a p i aux A. destruct (agree_fields _ _ A) as (F1 & F2 & F3 & F4 & F5 & F6 & F7). split.
  - unfold rec_public, new_rec. cbn [r_idx r_runnable r_vttbr r_vtcr r_common_hcr r_mdcr r_set_ripas r_g_rd r_pmu_enabled r_pmu_num_ctrs r_algorithm r_simd r_ctx r_psci_pending r_aux r_host_call].
    rewrite F3, F6, F7. reflexivity.
  - intros _. split; reflexivity.
Qed.
Lemma k_rec_create : (forall c r d a p i aux, J (new_rec c r d a p i aux)) ->
  forall c p a b pa, ni [] (smc_rec_create c p a b pa) (smc_rec_create c p a b pa) same_.
Proof.
  intros HJ c p a b pa. unfold smc_rec_create. nstep; [nstep; reflexivity|]. nstep. nstep. nstep; [nstep; reflexivity|]. do 4 nstep.
  destruct p as [p|]; [|apply ni_ret; reflexivity]. cbv zeta. dif; [apply ni_ret; reflexivity|].
  set (aux := aux_list p (rp_num_aux p mod 2 ^ 32)). clearbody aux.
  apply ni_bind. apply n_acquire; [intros z []|intros L; apply ni_ret; reflexivity|]. intros L S _. cbn [negb app] in *.
  apply ni_bind. apply n_find_two; [reflexivity|reflexivity| |].
  - nstep. nstep. nstep. dif; [apply n_free_aux; [right; exact S|]|apply ni_ret]; nsteps.
  - intros L2 S2 NE. cbn [negb]. apply ni_bind. apply ni_bind.
    assert (SA : incl aux L2) by (intros z Z; apply S2; right; right; apply S, Z).
    assert (K : forall L3 (o : N * gstate), incl L2 L3 ->
      ni L3 (granule_unlock a;;; granule_unlock_transition b (snd o);;; Ret (fst o)) (granule_unlock a;;; granule_unlock_transition b (snd o);;; Ret (fst o))
       (fun L ret ret' => ni L ((if negb (ret =? RMI_SUCCESS) then free_rec_aux_granules aux 0 false else Ret tt);;; Ret ret)
                               ((if negb (ret' =? RMI_SUCCESS) then free_rec_aux_granules aux 0 false else Ret tt);;; Ret ret') same_)).
    { intros L3 o S3. nstep. nstep. apply ni_bind. apply n_transition; [right; apply S3, S2; left; reflexivity|]. apply ni_ret.
      apply ni_bind. dif; [apply n_free_aux; [right; intros z Z; apply S3, SA, Z|]|apply ni_ret]; nsteps. }
    unfold rec_create_locked. nstep. nstep. nstep; [nstep; apply K, incl_refl|].
    do 4 nstep. apply ni_bind. apply (n_get_rec J J0); [inp|]. intros r r' A Z. apply ni_bind. apply n_get_rd; [inp|]. intros d mm. norm. cbv zeta.
    apply ni_bind.
    assert (K2 : forall L3 (o : N * gstate), incl L2 L3 ->
      ni L3 (unmap_slot SLOT_RD;;; unmap_slot SLOT_REC;;; Ret o) (unmap_slot SLOT_RD;;; unmap_slot SLOT_REC;;; Ret o)
       (fun L out out' => ni L (granule_unlock a;;; granule_unlock_transition b (snd out);;; Ret (fst out)) (granule_unlock a;;; granule_unlock_transition b (snd out');;; Ret (fst out'))
       (fun L ret ret' => ni L ((if negb (ret =? RMI_SUCCESS) then free_rec_aux_granules aux 0 false else Ret tt);;; Ret ret)
                               ((if negb (ret' =? RMI_SUCCESS) then free_rec_aux_granules aux 0 false else Ret tt);;; Ret ret') same_))).
    { intros L3 o S3. do 4 nstep. nstep. apply K, S3. }
    dif; [apply ni_ret, K2, incl_refl|]. dif; [apply ni_ret, K2, incl_refl|].
    dif; [apply ni_ret, K2, incl_refl|]. nstep. nstep. apply ni_bind. apply n_put_rec; [apply agree_new, A|apply HJ|].
    nstep. nstep. nstep. nstep. apply ni_bind. apply n_put_rd2.
    { cbn [new_rec r_runnable]. destruct (negb _); reflexivity. }
    apply ni_ret. apply K2. apply incl_tl, incl_tl, incl_refl.
Qed.
End Cmds.

(** ** PSCI *)
Definition off (r : recd) : Prop := r_runnable r = false -> r_psci_pending r = false.

Lemma agree_finish : forall r r' v, rec_agree r r' -> rec_agree (finish_psci r v) (finish_psci r' v).
Proof.
  intros r r' v (E & F). split; [|intros K; discriminate K]. unfold rec_public in *. cbn.
  assert (E1 : (r_idx r, r_runnable r, (r_vttbr r, r_vtcr r, r_common_hcr r, r_mdcr r), r_set_ripas r, r_g_rd r, (r_pmu_enabled r, r_pmu_num_ctrs r, r_algorithm r, r_simd r, r_ctx r)) =
               (r_idx r', r_runnable r', (r_vttbr r', r_vtcr r', r_common_hcr r', r_mdcr r'), r_set_ripas r', r_g_rd r', (r_pmu_enabled r', r_pmu_num_ctrs r', r_algorithm r', r_simd r', r_ctx r'))) by congruence.
  congruence.
Qed.
Lemma agree_on : forall r r' s s' x x' e e', rec_agree r r' -> r_psci_pending r = false ->
  rec_agree (set_runnable (set_pc (set_reg (psci_reset_rec r s) 0 x) e) true) (set_runnable (set_pc (set_reg (psci_reset_rec r' s') 0 x') e') true).
Proof.
  intros r r' s s' x x' e e' (E & F) P. split; [|intros K; cbn in K; congruence]. unfold rec_public in *. cbn.
  assert (E0 : r_idx r = r_idx r') by congruence.
  assert (E1 : ((r_vttbr r, r_vtcr r, r_common_hcr r, r_mdcr r), r_set_ripas r, r_g_rd r, (r_pmu_enabled r, r_pmu_num_ctrs r, r_algorithm r, r_simd r, r_ctx r)) =
               ((r_vttbr r', r_vtcr r', r_common_hcr r', r_mdcr r'), r_set_ripas r', r_g_rd r', (r_pmu_enabled r', r_pmu_num_ctrs r', r_algorithm r', r_simd r', r_ctx r'))) by congruence.
  congruence.
Qed.

Definition psci_alike (o o' : option (N * recd * recd)) : Prop :=
  match o, o' with
  | None, None => True
  | Some (x, a, b), Some (x', a', b') => x = x' /\ (rec_agree a a' /\ off a) /\ (rec_agree b b' /\ off b)
  | _, _ => False
  end.
Lemma psci_agree : forall a a' b b' u st, rec_agree a a' -> off a -> rec_agree b b' -> off b ->
  psci_alike (psci_complete_request a b u st) (psci_complete_request a' b' u st).
Proof.
  intros a a' b b' u st A Oa B Ob. destruct (agree_fields _ _ A) as (A1 & A2 & A3 & A4 & A5 & A6 & A7).
  destruct (agree_fields _ _ B) as (B1 & B2 & B3 & B4 & B5 & B6 & B7).
  assert (FA : forall v, rec_agree (finish_psci a v) (finish_psci a' v) /\ off (finish_psci a v)).
  { intros v. split; [apply agree_finish, A|]. intros _. reflexivity. }
  unfold psci_complete_request. cbv zeta. rewrite A6, A1, B1, B4.
  destruct (r_psci_pending a) eqn:Pa; cbn [negb]; [|cbn; auto]. destruct A as (AP & AR). destruct (AR Pa) as (R0 & R1).
  assert (A : rec_agree a a') by (split; [exact AP|intros _; auto]).
  destruct (negb _); [cbn; auto|]. rewrite <- R0, <- R1. destruct (negb _); [cbn; auto|]. destruct ((_ =? _) || (_ =? _)).
  - destruct (negb _ && negb _); [cbn; auto|]. unfold complete_psci_cpu_on. rewrite B5. destruct (u || r_runnable b) eqn:U.
    + cbn [fst snd psci_alike]. auto.
    + destruct (st =? PSCI_RETURN_DENIED); cbn [fst snd psci_alike]; [auto|]. split; [reflexivity|]. split; [apply FA|].
      apply orb_false_elim in U. split; [apply agree_on; [exact B|apply Ob, U]|]. intros K. discriminate K.
  - destruct ((_ =? _) || (_ =? _)); [|exact I]. destruct (negb _); [cbn; auto|]. unfold complete_psci_affinity_info. rewrite B5. cbn. auto.
Qed.

Lemma k_psci : forall c a b st, ni off [] (smc_psci_complete c a b st) (smc_psci_complete c a b st) same_.
Proof.
  intros c a b st. unfold smc_psci_complete. dif; [apply ni_ret; reflexivity|]. dif; [apply ni_ret; reflexivity|].
  nstep. nstep; [nstep; reflexivity|]. nstep. nstep. nstep. dif; [nsteps|]. do 4 nstep.
  assert (Z : off rec_zero) by (intros _; reflexivity).
  apply ni_bind. apply (n_get_rec off Z); [inp|]. intros r r' A O. apply ni_bind. apply (n_get_rec off Z); [inp|]. intros t t' B U.
  nstep. nstep. apply ni_bind. pose proof (psci_agree r r' t t' (negb (a3 =? 0)) st A O B U) as K. unfold psci_alike in K.
  destruct (psci_complete_request r t _ st) as [[[x0 y] z]|]; destruct (psci_complete_request r' t' _ st) as [[[x0' y'] z']|]; try contradiction; [|exact I].
  destruct K as (<- & (K1 & K2) & (K3 & K4)). apply ni_bind. apply n_put_rec; [exact K3|exact K4|].
  apply ni_bind. apply n_put_rec; [exact K1|exact K2|]. nsteps.
Qed.
