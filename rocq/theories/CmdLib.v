(** Lemmas and tactics to execute the commands symbolically *)
From Coq Require Import NArith ZArith List Bool Lia ZifyBool ZifyN.
From Verif Require Import Bits S2tte S2tteFacts State Granule Wp RecFields Measure RmiGranule RmiRtt RmiRealm Psci RmiRec
  Inv InvTree InvStep InvStep2 InvStep3 Effects.
Import ListNotations.
Local Open Scope N_scope.

(** Case analysis on an address, everywhere *)
Ltac addr_cases z :=
  repeat match goal with
  | |- context [N.eqb z ?k] => destruct (N.eqb_spec z k); [try subst z|]
  end.
(** All locks and slots are free *)
Ltac rew_hyps :=
  repeat match goal with
  | H : forall z, ?f z = _ |- context [?f ?x] => is_var f; rewrite (H x)
  end.
Ltac unpw := unfold upd; rew_hyps; unfold upd; rew_hyps; unfold upd; rew_hyps; unfold upd.
Ltac quiet_tac :=
  split; let z := fresh "z" in intro z; cbn [s_locks s_slots]; unpw; addr_cases z; rew_hyps; solve [reflexivity | congruence].
Ltac side := solve [ updsimp; first [reflexivity | assumption | congruence] | unpw; rewrite ?N.eqb_refl; reflexivity ].
Ltac wp_step :=
  cbv beta zeta; cbn [negb];
  lazymatch goal with
  | |- wp _ (bind _ _) _ _ => apply wp_bind
  | |- wp _ (Ret _) _ _ => apply wp_ret
  | |- wp _ (map_slot _) _ _ => apply wp_map_slot; [side|]
  | |- wp _ (unmap_slot _) _ _ => apply wp_unmap_slot; [side|]
  | |- wp _ (granule_set_state _ _) _ _ => apply wp_set_state; [side|]
  | |- wp _ (granule_memzero_mapped _) _ _ => apply wp_memzero_mapped
  | |- wp _ (wr_mem _ _) _ _ => apply wp_wr_mem
  | |- wp _ (put_rd _ _) _ _ => apply wp_put_rd
  | |- wp _ (put_rec _ _) _ _ => apply wp_put_rec
  | |- wp _ (tlbi _ _ _) _ _ => apply wp_tlbi
  | |- wp _ (s2tt_invalidate_page _ _) _ _ => apply wp_tlbi
  | |- wp _ (s2tt_invalidate_block _ _) _ _ => apply wp_tlbi
  | |- wp _ (s2tt_invalidate_pages_in_block _ _) _ _ => apply wp_tlbi
  | |- wp _ (granule_refcount_read_acquire _) _ _ => apply wp_refcount_read; [side|]
  | |- wp _ (rd_ref _) _ _ => apply wp_rd_ref
  | |- wp _ (rd_state_ _) _ _ => apply wp_rd_state
  end.
Ltac wps := repeat wp_step.

Lemma pack_nonzero : forall l, pack_return_code RMI_ERROR_RTT l <> RMI_SUCCESS.
Proof.
  intros l H. unfold pack_return_code in H. apply N.lor_eq_0_l in H. discriminate.
Qed.

Lemma post_fail : forall c gh G V T code (F : Prop) P L S G' V',
  code <> RMI_SUCCESS -> free L -> free S -> (forall z, G' z = G z) -> (forall z, V' z = V z) -> F ->
  cmd_post c gh G V T code F P (mkS L S G' V' T).
Proof.
  intros. split; [split; assumption|]. split; [intros _; repeat split; assumption|contradiction].
Qed.
Lemma post_ok : forall c gh G V T (F : Prop) (P : ghost -> list label -> list (N * N * N) -> Prop) L S G' V' T' labs gh' inv,
  free L -> free S -> geffs c gh G V labs gh' G' V' -> T' = invals inv T -> P gh' labs inv ->
  cmd_post c gh G V T RMI_SUCCESS F P (mkS L S G' V' T').
Proof.
  intros. split; [split; assumption|]. split; [intro N; contradiction N; reflexivity|].
  intros _. exists labs, gh', inv. repeat split; assumption.
Qed.

Section Lib.
Variables (c : cfg) (gh : ghost) (G : N -> granule) (V : N -> bool).
Hypothesis I : Inv c gh G V.

Lemma rd_of_state : forall rd, g_state (G rd) = RD -> exists d, is_rd G rd d /\ as_rd (g_mem (G rd)) = Some d.
Proof.
  intros rd H. destruct (i_rd _ _ _ _ I _ H) as (d & M & _). exists d. split; [split; assumption|]. rewrite M. reflexivity.
Qed.

(** The tables reached by the walk *)
Record at_entry (x : s2ctx) (rd : N) (l : Z) (n a i : N) (f : N -> N) (e : entry) : Prop := {
  ae_own : own gh a = Some (rd, l, n / 512);
  ae_i : i = n mod 512;
  ae_e : e = ent gh a i;
  ae_lt : i < 512;
  ae_st : g_state (G a) = RTT;
  ae_mem : g_mem (G a) = CW f;
  ae_words : words_ok (enable_lpa2 x) l f (ent gh a);
  ae_f : f i = enc (enable_lpa2 x) l e;
  ae_valid : valid_entry (enable_lpa2 x) l e;
  ae_ok : entry_ok gh x rd l n e;
  ae_l : (s2_sl x <= l <= 3)%Z
}.

Lemma walk_at : forall rd d addr level wi, is_rd G rd d -> walk_res gh (rd_ctx d) rd addr level wi ->
  exists f e, at_entry (rd_ctx d) rd (w_level wi) (addr / ms (w_level wi)) (w_llt wi) (w_index wi) f e /\
    (s2_sl (rd_ctx d) <= w_level wi <= level)%Z /\ ((w_level wi < level)%Z -> is_table_e e = false).
Proof.
  intros rd d addr level wi R (O & Ei & Hl & NT).
  pose proof (inv_own _ _ _ _ I _ _ _ _ _ O R) as T. destruct (t_words _ _ _ _ _ _ _ T) as (f & M & W).
  assert (Hi : w_index wi < 512) by (rewrite Ei; apply mod512_lt).
  exists f, (ent gh (w_llt wi) (w_index wi)).
  pose proof (t_entries _ _ _ _ _ _ _ T _ Hi) as EO.
  split; [|split; assumption].
  constructor; try assumption; try reflexivity.
  - apply T.
  - apply W, Hi.
  - apply EO.
  - rewrite Ei in EO at 1. rewrite <- div512 in EO. exact EO.
  - apply T.
Qed.

(** An entry of a page of a table *)
Lemma words_upd : forall lpa2 l f g e i w e', words_ok lpa2 l f e -> (forall j, j <> i -> g j = f j) ->
  w = enc lpa2 l e' -> words_ok lpa2 l (upd g i w) (upd e i e').
Proof.
  intros lpa2 l f g e i w e' W F E j Hj. unfold upd. destruct (N.eqb_spec j i); [assumption|].
  rewrite F by assumption. apply W, Hj.
Qed.

(** Effects in terms of the number of the entry *)
Lemma at_n : forall x rd l n a i f e, at_entry x rd l n a i f e -> 512 * (n / 512) + i = n.
Proof. intros * A. rewrite (ae_i _ _ _ _ _ _ _ _ A). symmetry. apply div512. Qed.

Lemma ge_entry : forall rd d l n a i f e e' f' G', is_rd G rd d -> at_entry (rd_ctx d) rd l n a i f e ->
  is_table_e e = false -> is_table_e e' = false -> asg e = asg e' -> entry_ok gh (rd_ctx d) rd l n e' ->
  words_ok (enable_lpa2 (rd_ctx d)) l f' (upd (ent gh a) i e') ->
  G' a = mkG RTT (g_ref (G a)) (CW f') -> (forall z, z <> a -> G' z = G z) ->
  geff c gh G V (LEntry rd l n e e') (set_ent gh a (upd (ent gh a) i e')) G' V.
Proof.
  intros * R A T T' S EO W Ga F. pose proof (at_n _ _ _ _ _ _ _ _ A) as En. destruct A. subst e.
  rewrite <- En at 1. eapply g_entry; try eassumption. rewrite En. assumption.
Qed.
Lemma ge_assign : forall rd d n a i f e e' f' pa fd G', is_rd G rd d -> at_entry (rd_ctx d) rd 3 n a i f e ->
  asg e = None -> is_table_e e = false -> asg e' = Some pa ->
  valid_entry (enable_lpa2 (rd_ctx d)) 3 e' -> n < parn (rd_ctx d) 3 -> g_state (G pa) = DELEGATED ->
  words_ok (enable_lpa2 (rd_ctx d)) 3 f' (upd (ent gh a) i e') ->
  G' a = mkG RTT (g_ref (G a) + 1) (CW f') -> G' pa = mkG DATA 0 (CW fd) ->
  (forall z, z <> a -> z <> pa -> G' z = G z) ->
  geff c gh G V (LAssign rd n e e' pa fd)
    (set_dmap (set_ent gh a (upd (ent gh a) i e')) pa (Some (rd, n))) G' V.
Proof.
  intros * R A H1 H2 H3 H4 H5 H6 H7 H8 H9 H10. pose proof (at_n _ _ _ _ _ _ _ _ A) as En. destruct A. subst e.
  rewrite <- En at 1 2. eapply g_assign; try eassumption. rewrite En. assumption.
Qed.
Lemma ge_release : forall rd d n a i f e e' f' pa G', is_rd G rd d -> at_entry (rd_ctx d) rd 3 n a i f e ->
  asg e = Some pa -> asg e' = None -> is_table_e e' = false ->
  entry_ok gh (rd_ctx d) rd 3 n e' ->
  words_ok (enable_lpa2 (rd_ctx d)) 3 f' (upd (ent gh a) i e') ->
  G' a = mkG RTT (g_ref (G a) - 1) (CW f') -> G' pa = mkG DELEGATED 0 czero ->
  (forall z, z <> a -> z <> pa -> G' z = G z) ->
  geff c gh G V (LRelease rd n e e' pa) (set_dmap (set_ent gh a (upd (ent gh a) i e')) pa None) G' V.
Proof.
  intros * R A H1 H2 H3 H4 H5 H6 H7 H8. pose proof (at_n _ _ _ _ _ _ _ _ A) as En. destruct A. subst e.
  rewrite <- En at 1. eapply g_release; try eassumption. rewrite En. assumption.
Qed.
Lemma ge_attach : forall rd d l n a i f e b f' fb G', is_rd G rd d -> at_entry (rd_ctx d) rd l n a i f e ->
  (l < 3)%Z -> n < ipan (rd_ctx d) l -> g_state (G b) = DELEGATED -> pa_ok (enable_lpa2 (rd_ctx d)) 3 b ->
  is_table_e e = false -> (asg e <> None -> (1 <= l)%Z) ->
  words_ok (enable_lpa2 (rd_ctx d)) l f' (upd (ent gh a) i (ETable b)) ->
  words_ok (enable_lpa2 (rd_ctx d)) (l + 1) fb (unfold_e (l + 1) e) ->
  G' a = mkG RTT (g_ref (G a) + 1 - N.b2n (counted e)) (CW f') ->
  G' b = mkG RTT (if counted e then 512 else 0) (CW fb) ->
  (forall z, z <> a -> z <> b -> G' z = G z) ->
  geff c gh G V (LAttach rd l n e b)
    (set_own (set_ent (set_ent gh a (upd (ent gh a) i (ETable b))) b (unfold_e (l + 1) e)) b (Some (rd, (l + 1)%Z, n))) G' V.
Proof.
  intros * R A H1 H2 H3 H4 H5 H6 H7 H8 H9 H10 H11. pose proof (at_n _ _ _ _ _ _ _ _ A) as En. destruct A. subst e.
  rewrite <- En at 1 2. eapply g_attach; try eassumption. rewrite En. assumption.
Qed.
Lemma ge_fold : forall rd d l n a i f b e' f' G', is_rd G rd d -> at_entry (rd_ctx d) rd l n a i f (ETable b) ->
  is_table_e e' = false -> valid_entry (enable_lpa2 (rd_ctx d)) l e' ->
  (forall j, j < 512 -> ent gh b j = unfold_e (l + 1) e' j) ->
  words_ok (enable_lpa2 (rd_ctx d)) l f' (upd (ent gh a) i e') ->
  G' a = mkG RTT (g_ref (G a) - 1 + N.b2n (counted e')) (CW f') ->
  G' b = mkG DELEGATED 0 czero -> (forall z, z <> a -> z <> b -> G' z = G z) ->
  geff c gh G V (LFold rd l n e' b) (set_own (set_ent gh a (upd (ent gh a) i e')) b None) G' V.
Proof.
  intros * R A H1 H2 H3 H4 H5 H6 H7. pose proof (at_n _ _ _ _ _ _ _ _ A) as En. destruct A.
  rewrite <- En at 1. eapply g_fold; try eassumption. symmetry. assumption.
Qed.
Lemma ge_destroy : forall rd d l n a i f b e' f' G', is_rd G rd d -> at_entry (rd_ctx d) rd l n a i f (ETable b) ->
  (e' = if n <? parn (rd_ctx d) l then EUnDestr else EUnNs) -> g_ref (G b) = 0 ->
  words_ok (enable_lpa2 (rd_ctx d)) l f' (upd (ent gh a) i e') ->
  G' a = mkG RTT (g_ref (G a) - 1) (CW f') ->
  G' b = mkG DELEGATED 0 czero -> (forall z, z <> a -> z <> b -> G' z = G z) ->
  geff c gh G V (LDestroy rd l n e' b) (set_own (set_ent gh a (upd (ent gh a) i e')) b None) G' V.
Proof.
  intros * R A H1 H2 H3 H4 H5 H6. pose proof (at_n _ _ _ _ _ _ _ _ A) as En. destruct A.
  rewrite <- En at 1. eapply g_destroy; try eassumption; [symmetry; assumption|]. rewrite En. assumption.
Qed.

(** A counted entry makes the reference count positive *)
Lemma at_ref : forall x rd d l n a i f e, is_rd G rd d -> x = rd_ctx d -> at_entry x rd l n a i f e -> counted e = true ->
  1 <= g_ref (G a) /\ g_ref (G a) <= 512.
Proof.
  intros x rd d l n a i f e R -> A C. pose proof (inv_own _ _ _ _ I _ _ _ _ _ (ae_own _ _ _ _ _ _ _ _ A) R) as T.
  rewrite (t_ref _ _ _ _ _ _ _ T). split; [|apply cnt_le].
  rewrite (ae_e _ _ _ _ _ _ _ _ A) in C. pose proof (cnt_pos (ent gh a) i (ae_lt _ _ _ _ _ _ _ _ A) C). lia.
Qed.
Lemma at_ref_lt : forall x rd d l n a i f e, is_rd G rd d -> x = rd_ctx d -> at_entry x rd l n a i f e -> counted e = false ->
  g_ref (G a) < 512.
Proof.
  intros x rd d l n a i f e R -> A C. pose proof (inv_own _ _ _ _ I _ _ _ _ _ (ae_own _ _ _ _ _ _ _ _ A) R) as T.
  rewrite (t_ref _ _ _ _ _ _ _ T). rewrite (ae_e _ _ _ _ _ _ _ _ A) in C.
  exact (cnt_lt (ent gh a) i (ae_lt _ _ _ _ _ _ _ _ A) C).
Qed.

(** Locking the root table, walking, with and without releasing the descriptor *)
Lemma wp_lock_walk : forall E B rd d addr level L S T (K : walk -> prog B) Q,
  is_rd G rd d -> addr < 2 ^ ipa_bits (rd_ctx d) -> (s2_sl (rd_ctx d) <= level <= 3)%Z ->
  L rd = true -> (forall a, g_state (G a) = RTT -> L a = false) -> S SLOT_RTT = false ->
  (forall wi L' S', (forall z, L' z = upd (upd L rd false) (w_llt wi) true z) -> (forall z, S' z = S z) ->
     walk_res gh (rd_ctx d) rd addr level wi -> wp E (K wi) (mkS L' S' G V T) Q) ->
  wp E (granule_lock (g_rtt (rd_ctx d)) RTT ;;; granule_unlock rd ;;;
        (wi <- s2tt_walk_lock_unlock c (rd_ctx d) addr level ;; K wi)) (mkS L S G V T) Q.
Proof.
  intros * R Ha Hl Lr Lt Sr HQ.
  pose proof (root0_own _ _ _ _ I _ _ R) as O. pose proof (own_rtt _ _ _ _ I _ _ _ _ O) as St.
  assert (ne : g_rtt (rd_ctx d) <> rd) by (intro E0; destruct R; congruence).
  apply wp_bind, wp_granule_lock; [apply Lt, St|apply (inv_uok _ _ _ _ I)|exact St|].
  apply wp_bind, wp_granule_unlock; [side|apply (inv_uok _ _ _ _ I)|].
  apply wp_bind. eapply (wp_walk c gh G V I); try eassumption.
  - side.
  - intros a Sa na. unfold upd. destruct (N.eqb_spec a rd); [reflexivity|]. destruct (N.eqb_spec a (g_rtt (rd_ctx d))); [contradiction|]. apply Lt, Sa.
  - intros wi L' S' HL HS W. apply HQ; try assumption. intro z. rewrite HL.
    destruct (N.eq_dec z (w_llt wi)) as [->|]; updsimp; [reflexivity|].
    destruct (N.eq_dec z (g_rtt (rd_ctx d))) as [->|]; updsimp.
    + symmetry. apply Lt, St.
    + destruct (N.eq_dec z rd) as [->|]; updsimp; reflexivity.
Qed.
Lemma wp_lock_walk_keep : forall E B rd d addr level L S T (K : walk -> prog B) Q,
  is_rd G rd d -> addr < 2 ^ ipa_bits (rd_ctx d) -> (s2_sl (rd_ctx d) <= level <= 3)%Z ->
  (forall a, g_state (G a) = RTT -> L a = false) -> S SLOT_RTT = false ->
  (forall wi L' S', (forall z, L' z = upd L (w_llt wi) true z) -> (forall z, S' z = S z) ->
     walk_res gh (rd_ctx d) rd addr level wi -> wp E (K wi) (mkS L' S' G V T) Q) ->
  wp E (granule_lock (g_rtt (rd_ctx d)) RTT ;;;
        (wi <- s2tt_walk_lock_unlock c (rd_ctx d) addr level ;; K wi)) (mkS L S G V T) Q.
Proof.
  intros * R Ha Hl Lt Sr HQ.
  pose proof (root0_own _ _ _ _ I _ _ R) as O. pose proof (own_rtt _ _ _ _ I _ _ _ _ O) as St.
  apply wp_bind, wp_granule_lock; [apply Lt, St|apply (inv_uok _ _ _ _ I)|exact St|].
  apply wp_bind. eapply (wp_walk c gh G V I); try eassumption.
  - side.
  - intros a Sa na. updsimp. apply Lt, Sa.
  - intros wi L' S' HL HS W. apply HQ; try assumption. intro z. rewrite HL.
    destruct (N.eq_dec z (w_llt wi)) as [->|]; updsimp; [reflexivity|].
    destruct (N.eq_dec z (g_rtt (rd_ctx d))) as [->|]; updsimp; [symmetry; apply Lt, St|reflexivity].
Qed.

(** Validation of addresses *)
Lemma lvl_aligned : forall x level addr, ctx_ok x -> (s2_sl x <= level <= 3)%Z -> addr < 2 ^ ipa_bits x ->
  (s2tte_is_addr_lvl_aligned (enable_lpa2 x) addr level = true <-> addr mod ms level = 0).
Proof.
  intros x level addr X Hl Ha. pose proof (ctx_sl _ X). rewrite addr_lvl_aligned_iff by lia. unfold pa_ok, s2tte_map_size.
  assert (addr < 2 ^ oa_bits (enable_lpa2 x)) by (eapply N.lt_le_trans; [exact Ha|apply pow2_le; apply X]). tauto.
Qed.
(** Arguments that do not name a realm with property [P] *)
Lemma no_rd : forall rd (P : rdesc -> Prop), find_granule c rd = false \/ g_state (G rd) <> RD -> ~ exists d, is_rd G rd d /\ P d.
Proof.
  intros rd P [F|F] (d & [S _] & _); [|contradiction]. rewrite (i_gran _ _ _ _ I rd) in F; [discriminate|rewrite S; discriminate].
Qed.
Lemma bad_rd : forall rd d (P : rdesc -> Prop), is_rd G rd d -> ~ P d -> ~ exists d', is_rd G rd d' /\ P d'.
Proof. intros rd d P [_ M] N (d' & [_ M'] & H). rewrite M in M'. injection M' as ->. contradiction. Qed.

Lemma wp_validate_map : forall E addr level rd d s (Q : _ -> state -> Prop), is_rd G rd d -> (s2_sl (rd_ctx d) <= level <= 3)%Z ->
  (forall b, (b = true <-> addr < 2 ^ ipa_bits (rd_ctx d) /\ addr mod ms level = 0) -> Q b s) ->
  wp E (validate_map_addr addr level d) s Q.
Proof.
  intros * R Hl HQ. pose proof (inv_ctx _ _ _ _ I _ _ R) as X. pose proof (ctx_min _ X).
  unfold validate_map_addr, realm_ipa_size. destruct (N.ltb_spec addr (2 ^ ipa_bits (rd_ctx d))).
  - apply wp_addr_lvl_aligned; [lia|]. apply HQ. rewrite lvl_aligned by assumption. tauto.
  - apply wp_ret, HQ. split; [discriminate|lia].
Qed.
Lemma wp_validate_structure : forall E addr level rd d s (Q : _ -> state -> Prop), is_rd G rd d ->
  (forall b, (b = true <-> (s2_sl (rd_ctx d) < level <= 3)%Z /\ addr < 2 ^ ipa_bits (rd_ctx d) /\ addr mod ms (level - 1) = 0) -> Q b s) ->
  wp E (validate_rtt_structure_cmds addr level d) s Q.
Proof.
  intros * R HQ. unfold validate_rtt_structure_cmds. change S2TT_PAGE_LEVEL with 3%Z.
  destruct ((level <? s2_sl (rd_ctx d) + 1)%Z || (3 <? level)%Z) eqn:B.
  - apply wp_ret, HQ. split; [discriminate|lia].
  - eapply wp_validate_map; [exact R|lia|]. intros b Hb. apply HQ. rewrite Hb. split; intros; try split; try tauto; lia.
Qed.
Lemma wp_validate_entry : forall E addr level rd d s (Q : _ -> state -> Prop), is_rd G rd d ->
  (forall b, (b = true <-> (s2_sl (rd_ctx d) <= level <= 3)%Z /\ addr < 2 ^ ipa_bits (rd_ctx d) /\ addr mod ms level = 0) -> Q b s) ->
  wp E (validate_rtt_entry_cmds addr level d) s Q.
Proof.
  intros * R HQ. unfold validate_rtt_entry_cmds. change S2TT_PAGE_LEVEL with 3%Z.
  destruct ((level <? s2_sl (rd_ctx d))%Z || (3 <? level)%Z) eqn:B.
  - apply wp_ret, HQ. split; [discriminate|lia].
  - eapply wp_validate_map; [exact R|lia|]. intros b Hb. apply HQ. rewrite Hb. split; intros; try split; try tauto; lia.
Qed.
Lemma in_par_iff : forall rd d addr, is_rd G rd d -> (addr_in_par d addr = true <-> addr < 2 ^ (ipa_bits (rd_ctx d) - 1)).
Proof.
  intros rd d addr R. pose proof (inv_ctx _ _ _ _ I _ _ R) as X. pose proof (ctx_sl _ X).
  pose proof (ctx_lsb _ X 3 ltac:(lia)).
  unfold addr_in_par, realm_par_size, realm_ipa_size. rewrite N.shiftr_div_pow2.
  replace (2 ^ ipa_bits (rd_ctx d) / 2 ^ 1) with (2 ^ (ipa_bits (rd_ctx d) - 1)); [lia|].
  rewrite (pow2_split (ipa_bits (rd_ctx d)) 1) by lia. rewrite N.div_mul by discriminate. reflexivity.
Qed.
Lemma pack_rtt_input : forall l, pack_return_code RMI_ERROR_RTT l <> RMI_SUCCESS.
Proof. exact pack_nonzero. Qed.
End Lib.
