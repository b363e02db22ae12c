(** Consequences of the invariant: uniqueness of tables and of the entry that
    translates an address, and the specification of the table walk. *)
From Coq Require Import NArith ZArith List Bool Lia ZifyBool ZifyN.
From Verif Require Import Bits S2tte S2tteFacts State Granule Wp RmiRtt RmiRealm Inv.
Import ListNotations.
Local Open Scope N_scope.

Definition is_table_e (e : entry) : bool := match e with ETable _ => true | _ => false end.

Lemma div512 : forall n, n = 512 * (n / 512) + n mod 512.
Proof. intro n. apply N.div_mod. discriminate. Qed.
Lemma mod512_lt : forall n, n mod 512 < 512.
Proof. intro n. apply N.mod_lt. discriminate. Qed.

Section Facts.
Variables (c : cfg) (gh : ghost) (G : N -> granule) (V : N -> bool).
Hypothesis I : Inv c gh G V.

Lemma inv_uok : forall a, uok (G a).
Proof.
  intro a. unfold uok. destruct (g_state (G a)) eqn:S; cbn [unlocked_inv].
  - rewrite (proj1 (i_ns _ _ _ _ I a S)). reflexivity.
  - rewrite (i_del _ _ _ _ I a S). reflexivity.
  - reflexivity.
  - pose proof (proj1 (i_rec _ _ _ _ I a S)). lia.
  - rewrite (proj1 (i_aux _ _ _ _ I a S)). reflexivity.
  - rewrite (proj1 (i_data _ _ _ _ I a S)). reflexivity.
  - pose proof (i_rtt _ _ _ _ I a S) as O. destruct (own gh a) as [((rd, l), t)|] eqn:Ow; [|contradiction].
    destruct (i_own _ _ _ _ I _ _ _ _ Ow) as (d & _ & T). rewrite (t_ref _ _ _ _ _ _ _ T).
    pose proof (cnt_le (ent gh a)). lia.
  - pose proof (i_kinds _ _ _ _ I a) as K. rewrite S in K. contradiction.
  - pose proof (i_kinds _ _ _ _ I a) as K. rewrite S in K. contradiction.
  - pose proof (i_kinds _ _ _ _ I a) as K. rewrite S in K. contradiction.
  - pose proof (i_kinds _ _ _ _ I a) as K. rewrite S in K. contradiction.
Qed.

Lemma is_rd_inj : forall a d d', is_rd G a d -> is_rd G a d' -> d = d'.
Proof. intros a d d' [_ H] [_ H']. congruence. Qed.
Lemma is_rec_inj : forall a d d', is_rec G a d -> is_rec G a d' -> d = d'.
Proof. intros a d d' [_ H] [_ H']. congruence. Qed.

Lemma inv_rd_ok : forall a d, is_rd G a d -> rd_ok c d.
Proof.
  intros a d [S M]. destruct (i_rd _ _ _ _ I a S) as (d' & M' & R & _). congruence.
Qed.
Lemma inv_ctx : forall a d, is_rd G a d -> ctx_ok (rd_ctx d).
Proof. intros a d H. apply (inv_rd_ok a d H). Qed.

Lemma inv_own : forall a rd l t d, own gh a = Some (rd, l, t) -> is_rd G rd d ->
  table_ok gh (rd_ctx d) rd l t a (G a).
Proof.
  intros a rd l t d O R. destruct (i_own _ _ _ _ I _ _ _ _ O) as (d' & R' & T).
  rewrite (is_rd_inj _ _ _ R R'). exact T.
Qed.
Lemma own_rtt : forall a rd l t, own gh a = Some (rd, l, t) -> g_state (G a) = RTT.
Proof. intros a rd l t O. destruct (i_own _ _ _ _ I _ _ _ _ O) as (d & _ & T). apply T. Qed.
Lemma own_rd : forall a rd l t, own gh a = Some (rd, l, t) -> exists d, is_rd G rd d.
Proof. intros a rd l t O. destruct (i_own _ _ _ _ I _ _ _ _ O) as (d & R & _). eauto. Qed.

Lemma own_child : forall a rd l t i b, own gh a = Some (rd, l, t) -> i < 512 -> ent gh a i = ETable b ->
  own gh b = Some (rd, (l + 1)%Z, 512 * t + i) /\ (l < 3)%Z.
Proof.
  intros a rd l t i b O Hi E. destruct (i_own _ _ _ _ I _ _ _ _ O) as (d & R & T).
  pose proof (t_entries _ _ _ _ _ _ _ T i Hi) as K. rewrite E in K. destruct K as ((Hl & _) & _ & K). auto.
Qed.

(** The label of a table determines the table. *)
Lemma own_unique : forall l a a' rd t,
  own gh a = Some (rd, l, t) -> own gh a' = Some (rd, l, t) -> a = a'.
Proof.
  intros l a a' rd t O O'. destruct (own_rd _ _ _ _ O) as (d & R).
  pose proof (inv_own _ _ _ _ _ O R) as T0. pose proof (t_level_ok _ _ _ _ _ _ _ T0) as L0. clear T0.
  remember (Z.to_nat (l - s2_sl (rd_ctx d))) as n eqn:Hn. revert l a a' t O O' L0 Hn.
  induction n as [|n IH]; intros l a a' t O O' L0 Hn;
    pose proof (inv_own _ _ _ _ _ O R) as T; pose proof (inv_own _ _ _ _ _ O' R) as T';
    destruct (t_parent _ _ _ _ _ _ _ T) as [(L1 & _ & A1)|(L1 & _ & b & B1 & B2)];
    destruct (t_parent _ _ _ _ _ _ _ T') as [(L1' & _ & A1')|(L1' & _ & b' & B1' & B2')]; try lia.
  assert (b = b') as <- by (apply (IH (l - 1)%Z b b' _ B1 B1'); lia).
  rewrite B2 in B2'. congruence.
Qed.

(** Going up: the table of a lower level around an existing table exists and
    its entry is the table on the path. *)
Lemma own_up : forall n l a rd t, own gh a = Some (rd, l, t) -> forall d, is_rd G rd d ->
  (s2_sl (rd_ctx d) <= l - Z.of_nat (S n))%Z ->
  exists b e, own gh b = Some (rd, (l - Z.of_nat (S n))%Z, t / 512 ^ N.of_nat n / 512) /\
    ent gh b ((t / 512 ^ N.of_nat n) mod 512) = ETable e.
Proof.
  induction n as [|n IH]; intros l a rd t O d R Hl.
  - pose proof (inv_own _ _ _ _ _ O R) as T.
    destruct (t_parent _ _ _ _ _ _ _ T) as [(L1 & _ & A1)|(L1 & _ & b & B1 & B2)]; [lia|].
    exists b, a. change (512 ^ N.of_nat 0) with 1. rewrite N.div_1_r. split; assumption.
  - destruct (IH l a rd t O d R ltac:(lia)) as (b & e & B1 & B2).
    pose proof (inv_own _ _ _ _ _ B1 R) as T.
    destruct (t_parent _ _ _ _ _ _ _ T) as [(L1 & _ & A1)|(L1 & _ & b' & B1' & B2')]; [lia|].
    exists b', b. replace (N.of_nat (S n)) with (N.succ (N.of_nat n)) by lia.
    rewrite N.pow_succ_r', (N.mul_comm 512), <- N.div_div by (try apply N.pow_nonzero; discriminate).
    replace (l - Z.of_nat (S (S n)))%Z with (l - Z.of_nat (S n) - 1)%Z by lia. split; assumption.
Qed.

(** Every table that is not of the starting level hangs below a table of the
    starting level. *)
Lemma own_root_above : forall a rd l t d, own gh a = Some (rd, l, t) -> is_rd G rd d ->
  (s2_sl (rd_ctx d) < l)%Z -> exists b u i e, own gh b = Some (rd, s2_sl (rd_ctx d), u) /\ i < 512 /\ ent gh b i = ETable e.
Proof.
  intros a rd l t d O R L1.
  destruct (own_up (Z.to_nat (l - s2_sl (rd_ctx d) - 1)) l a rd t O d R ltac:(lia)) as (b & e & B1 & B2).
  replace (l - Z.of_nat (S (Z.to_nat (l - s2_sl (rd_ctx d) - 1))))%Z with (s2_sl (rd_ctx d)) in B1 by lia.
  do 4 eexists. split; [exact B1|]. split; [apply mod512_lt|exact B2].
Qed.

(** [Leaf rd p l b e]: in the realm [rd] page number [p] is translated by
    the entry [e] of table [b] of level [l]. *)
Definition Leaf (rd p : N) (l : Z) (b : N) (e : entry) : Prop :=
  own gh b = Some (rd, l, p / pg l / 512) /\ ent gh b ((p / pg l) mod 512) = e /\ is_table_e e = false.

Lemma pg_pow : forall l n, (l + Z.of_nat n <= 3)%Z -> pg l = 512 ^ N.of_nat n * pg (l + Z.of_nat n).
Proof.
  intros l n. revert l. induction n as [|n IH]; intros l H.
  - change (512 ^ N.of_nat 0) with 1. rewrite N.mul_1_l. f_equal. lia.
  - rewrite IH by lia. rewrite (pg_succ (l + Z.of_nat n)) by lia.
    replace (l + Z.of_nat n + 1)%Z with (l + Z.of_nat (S n))%Z by lia.
    replace (N.of_nat (S n)) with (N.succ (N.of_nat n)) by lia. rewrite N.pow_succ_r'. lia.
Qed.

Lemma leaf_level_unique : forall rd p l b e l' b' e',
  Leaf rd p l b e -> Leaf rd p l' b' e' -> (l < l')%Z -> False.
Proof.
  intros rd p l b e l' b' e' (O & E & T) (O' & _ & _) Hl.
  destruct (own_rd _ _ _ _ O) as (d & R).
  pose proof (t_level_ok _ _ _ _ _ _ _ (inv_own _ _ _ _ _ O R)) as L1.
  pose proof (t_level_ok _ _ _ _ _ _ _ (inv_own _ _ _ _ _ O' R)) as L2.
  set (n := Z.to_nat (l' - l - 1)).
  destruct (own_up n l' b' rd _ O' d R ltac:(lia)) as (b2 & e2 & B1 & B2).
  replace (l' - Z.of_nat (S n))%Z with l in B1 by lia.
  assert (P : p / pg l' / 512 / 512 ^ N.of_nat n = p / pg l).
  { pose proof (pg_pos l'). rewrite !N.div_div by (try apply N.pow_nonzero; lia).
    f_equal. rewrite (pg_pow l (S n)) by lia. replace (l + Z.of_nat (S n))%Z with l' by lia.
    replace (N.of_nat (S n)) with (N.succ (N.of_nat n)) by lia. rewrite N.pow_succ_r'. lia. }
  rewrite P in B1, B2. rewrite <- (own_unique _ _ _ _ _ O B1) in B2. rewrite E in B2. rewrite B2 in T. discriminate.
Qed.

(** A page is translated by at most one entry. *)
Lemma leaf_unique : forall rd p l b e l' b' e',
  Leaf rd p l b e -> Leaf rd p l' b' e' -> l = l' /\ b = b' /\ e = e'.
Proof.
  intros rd p l b e l' b' e' H H'. destruct (Z.lt_trichotomy l l') as [C|[C|C]].
  - exfalso. exact (leaf_level_unique _ _ _ _ _ _ _ _ H H' C).
  - subst l'. destruct H as (O & E & _), H' as (O' & E' & _).
    pose proof (own_unique _ _ _ _ _ O O'). subst b'. split; [reflexivity|]. split; [reflexivity|congruence].
  - exfalso. exact (leaf_level_unique _ _ _ _ _ _ _ _ H' H C).
Qed.

(** Every page of the address space is translated by an entry. *)
Lemma leaf_below : forall n rd p l b d, is_rd G rd d -> Z.to_nat (3 - l) = n ->
  own gh b = Some (rd, l, p / pg l / 512) -> exists l' b' e, Leaf rd p l' b' e.
Proof.
  induction n as [|n IH]; intros rd p l b d R Hn O;
    pose proof (t_level_ok _ _ _ _ _ _ _ (inv_own _ _ _ _ _ O R)) as L1;
    destruct (is_table_e (ent gh b ((p / pg l) mod 512))) eqn:T;
    try (exists l, b; eexists; split; [eassumption|split; [reflexivity|assumption]]);
    destruct (ent gh b ((p / pg l) mod 512)) eqn:E; try discriminate;
    destruct (own_child _ _ _ _ _ _ O (mod512_lt _) E) as (O' & L3); [lia|].
  rewrite <- div512, pnum_succ in O' by assumption.
  eapply IH; [eassumption| |eassumption]. lia.
Qed.
Lemma leaf_exists : forall rd p d, is_rd G rd d -> p < ipan (rd_ctx d) 3 -> exists l b e, Leaf rd p l b e.
Proof.
  intros rd p d R Hp. pose proof (inv_ctx _ _ R) as X. pose proof (ctx_sl _ X) as SL.
  assert (K : p / pg (s2_sl (rd_ctx d)) / 512 < num_root_rtts (rd_ctx d)).
  { pose proof (root_count _ X). apply N.div_lt_upper_bound; [discriminate|].
    apply N.lt_le_trans with (ipan (rd_ctx d) (s2_sl (rd_ctx d))); [|assumption].
    assert (p = p * 4096 / 4096) as -> by (symmetry; apply N.div_mul; discriminate).
    rewrite <- num_page by lia. apply num_ipan; [assumption|lia|].
    rewrite <- (ipan_ms _ X 3) by lia. rewrite ms_3. lia. }
  eapply leaf_below; [eassumption|reflexivity|]. apply (i_root _ _ _ _ I _ _ _ R K).
Qed.

(** *** The table walk *)
Definition walk_res (x : s2ctx) (rd addr : N) (level : Z) (wi : walk) : Prop :=
  own gh (w_llt wi) = Some (rd, w_level wi, addr / ms (w_level wi) / 512) /\
  w_index wi = (addr / ms (w_level wi)) mod 512 /\
  (s2_sl x <= w_level wi <= level)%Z /\
  ((w_level wi < level)%Z -> is_table_e (ent gh (w_llt wi) (w_index wi)) = false).

Lemma own_words : forall a rd l t d, own gh a = Some (rd, l, t) -> is_rd G rd d ->
  exists f, g_mem (G a) = CW f /\ words_ok (enable_lpa2 (rd_ctx d)) l f (ent gh a).
Proof. intros a rd l t d O R. apply (inv_own _ _ _ _ _ O R). Qed.

Lemma wp_walk_loop : forall E n rd d addr g i L S T Q,
  is_rd G rd d -> addr < 2 ^ 52 -> own gh g = Some (rd, i, addr / ms i / 512) -> (i + Z.of_nat n <= 3)%Z ->
  L g = true -> (forall a, g_state (G a) = RTT -> a <> g -> L a = false) -> S SLOT_RTT = false ->
  (forall wi L' S', (forall z, L' z = upd (upd L g false) (w_llt wi) true z) -> (forall z, S' z = S z) ->
     walk_res (rd_ctx d) rd addr (i + Z.of_nat n) wi -> (Q wi (mkS L' S' G V T) : Prop)) ->
  wp E (walk_loop n c (rd_ctx d) addr g i) (mkS L S G V T) Q.
Proof.
  intros E n. induction n as [|n IH]; intros rd d addr g i L S T Q R Ha O Hi HL HL' HS HQ;
    pose proof (inv_own _ _ _ _ _ O R) as T0; pose proof (t_level_ok _ _ _ _ _ _ _ T0) as LV;
    pose proof (ctx_sl _ (inv_ctx _ _ R)) as SL; cbn [walk_loop].
  - apply wp_ret, HQ; try reflexivity.
    + intro z. cbn. destruct (N.eq_dec z g) as [->|]; updsimp; congruence.
    + split; [exact O|]. cbn. rewrite addr_to_idx_num by (assumption || lia). repeat split; lia.
  - destruct (own_words _ _ _ _ _ O R) as (f & Hf & W).
    assert (IX : s2_addr_to_idx addr i = (addr / ms i) mod 512) by (apply addr_to_idx_num; [lia|assumption]).
    assert (VE : valid_entry (enable_lpa2 (rd_ctx d)) i (ent gh g ((addr / ms i) mod 512)))
      by (apply (t_entries _ _ _ _ _ _ _ T0), mod512_lt).
    apply wp_bind. unfold find_lock_next_level. apply wp_bind.
    eapply wp_table_get_entry; [exact HS|exact Hf|]. intros S1 HS1. rewrite IX.
    rewrite (W _ (mod512_lt _)), entry_is_table_enc by (exact VE || lia).
    destruct (ent gh g ((addr / ms i) mod 512)) as [ | | | | | | | |b] eqn:EE; cbn [negb];
      try (apply wp_ret; apply HQ; try assumption;
           [intro z; cbn; destruct (N.eq_dec z g) as [->|]; updsimp; congruence
           |split; [exact O|]; cbn; rewrite ?IX; split; [reflexivity|]; split; [lia|]; intros _; rewrite EE; reflexivity]).
    rewrite (table_pa_enc _ _ _ VE).
    destruct (own_child _ _ _ _ _ _ O (mod512_lt _) EE) as (O' & L3).
    rewrite <- div512, num_succ in O' by assumption.
    pose proof (own_rtt _ _ _ _ O') as Sb.
    assert (bg : b <> g) by (intros ->; rewrite O in O'; injection O' as F _; lia).
    assert (F : find_granule c b = true) by (apply (i_gran _ _ _ _ I); congruence).
    unfold find_granule in F. apply andb_prop in F. destruct F as [F1 F2].
    apply wp_bind. unfold addr_to_granule. apply wp_bind, wp_assert; [exact F1|].
    apply wp_bind, wp_assert; [exact F2|]. apply wp_ret.
    apply wp_bind, wp_granule_lock; [apply HL'; assumption|apply inv_uok|assumption|].
    apply wp_ret. apply wp_bind, wp_granule_unlock; [updsimp; assumption|apply inv_uok|].
    eapply IH; try eassumption; try lia.
    + updsimp. reflexivity.
    + intros a Sa na. destruct (N.eq_dec a g) as [->|]; updsimp; [reflexivity|]. apply HL'; assumption.
    + rewrite HS1. exact HS.
    + intros wi L2 S2 H1 H2 H3. apply HQ.
      * intro z. rewrite H1. destruct (N.eq_dec z (w_llt wi)) as [->|]; updsimp; [reflexivity|].
        destruct (N.eq_dec z b) as [->|]; updsimp; [symmetry; apply HL'; assumption|].
        destruct (N.eq_dec z g) as [->|]; updsimp; reflexivity.
      * intro z. rewrite H2. apply HS1.
      * replace (i + Z.of_nat (Datatypes.S n))%Z with (i + 1 + Z.of_nat n)%Z by lia.
        destruct H3 as (A & B & C & D). split; [exact A|]. split; [exact B|]. split; [lia|exact D].
Qed.

Lemma sl_idx : forall x addr, ctx_ok x -> addr < 2 ^ ipa_bits x ->
  s2_sl_addr_to_idx addr (s2_sl x) (ipa_bits x) = addr / ms (s2_sl x).
Proof.
  intros x addr X H. unfold s2_sl_addr_to_idx.
  rewrite <- N.pred_sub, <- N.ones_equiv, N.land_ones, N.shiftr_div_pow2, N.mod_small by assumption. reflexivity.
Qed.

Lemma root_own : forall rd d addr, is_rd G rd d -> addr < 2 ^ ipa_bits (rd_ctx d) ->
  let t := addr / ms (s2_sl (rd_ctx d)) / 512 in
  t < num_root_rtts (rd_ctx d) /\ own gh (g_rtt (rd_ctx d) + t * 4096) = Some (rd, s2_sl (rd_ctx d), t).
Proof.
  intros rd d addr R Ha t. pose proof (inv_ctx _ _ R) as X. pose proof (ctx_sl _ X).
  assert (K : t < num_root_rtts (rd_ctx d)).
  { pose proof (root_count _ X). apply N.div_lt_upper_bound; [discriminate|].
    apply N.lt_le_trans with (ipan (rd_ctx d) (s2_sl (rd_ctx d))); [|assumption].
    apply num_ipan; [assumption|lia|assumption]. }
  split; [exact K|]. apply (i_root _ _ _ _ I _ _ _ R K).
Qed.

Lemma root0_own : forall rd d, is_rd G rd d -> own gh (g_rtt (rd_ctx d)) = Some (rd, s2_sl (rd_ctx d), 0).
Proof.
  intros rd d R. pose proof (i_root _ _ _ _ I _ _ _ R (root_pos _ (inv_ctx _ _ R))) as H.
  rewrite N.mul_0_l, N.add_0_r in H. exact H.
Qed.

Lemma wp_walk : forall E rd d addr level L S T Q,
  is_rd G rd d -> addr < 2 ^ ipa_bits (rd_ctx d) -> (s2_sl (rd_ctx d) <= level <= 3)%Z ->
  L (g_rtt (rd_ctx d)) = true -> (forall a, g_state (G a) = RTT -> a <> g_rtt (rd_ctx d) -> L a = false) ->
  S SLOT_RTT = false ->
  (forall wi L' S', (forall z, L' z = upd (upd L (g_rtt (rd_ctx d)) false) (w_llt wi) true z) -> (forall z, S' z = S z) ->
     walk_res (rd_ctx d) rd addr level wi -> (Q wi (mkS L' S' G V T) : Prop)) ->
  wp E (s2tt_walk_lock_unlock c (rd_ctx d) addr level) (mkS L S G V T) Q.
Proof.
  intros E rd d addr level L S T Q R Ha Hl HL HL' HS HQ.
  pose proof (inv_ctx _ _ R) as X. pose proof (ctx_sl _ X) as SL. pose proof (ctx_bits52 _ X) as B52.
  set (x := rd_ctx d) in *.
  assert (A52 : addr < 2 ^ 52) by (eapply N.lt_le_trans; [exact Ha|apply pow2_le; exact B52]).
  unfold s2tt_walk_lock_unlock.
  apply wp_bind, wp_assert; [lia|]. apply wp_bind, wp_assert; [change S2TT_PAGE_LEVEL with 3%Z; lia|].
  apply wp_bind, wp_assert; [apply N.ltb_lt; assumption|].
  apply wp_bind, wp_assert.
  { apply N.leb_le. destruct X as (_ & _ & H & _). unfold oa_bits in H. exact H. }
  rewrite sl_idx by assumption. change S2TTES_PER_S2TT with 512. change S2TTE_STRIDE with 9.
  destruct (root_own rd d addr R Ha) as (K & O). fold x in K, O.
  apply wp_bind. destruct (N.leb_spec 512 (addr / ms (s2_sl x))).
  - rewrite N.shiftr_div_pow2. change (2 ^ 9) with 512. change GRANULE_SIZE with 4096.
    set (t := addr / ms (s2_sl x) / 512) in *.
    assert (0 < t). { unfold t. apply N.div_str_pos. lia. }
    apply wp_bind, wp_assert; [apply N.ltb_lt; assumption|].
    pose proof (own_rtt _ _ _ _ O) as St.
    assert (ne : g_rtt x + t * 4096 <> g_rtt x) by lia.
    apply wp_bind, wp_granule_lock; [apply HL'; assumption|apply inv_uok|assumption|].
    apply wp_bind, wp_granule_unlock; [updsimp; assumption|apply inv_uok|]. apply wp_ret.
    apply (wp_walk_loop E _ rd d); try assumption; try lia; try (fold x; exact O).
    + updsimp. reflexivity.
    + intros a Sa na. destruct (N.eq_dec a (g_rtt x)) as [->|]; updsimp; [reflexivity|]. apply HL'; assumption.
    + intros wi L2 S2 H1 H2 H3. apply HQ; try assumption.
      * intro z. rewrite H1. destruct (N.eq_dec z (w_llt wi)) as [->|]; updsimp; [reflexivity|].
        destruct (N.eq_dec z (g_rtt x + t * 4096)) as [->|]; updsimp; [symmetry; apply HL'; assumption|].
        destruct (N.eq_dec z (g_rtt x)) as [->|]; updsimp; reflexivity.
      * fold x in H3. replace (s2_sl x + Z.of_nat (Z.to_nat (level - s2_sl x)))%Z with level in H3 by lia. exact H3.
  - apply wp_ret. assert (t0 : addr / ms (s2_sl x) / 512 = 0) by (apply N.div_small; assumption).
    rewrite t0, N.mul_0_l, N.add_0_r in O.
    apply (wp_walk_loop E _ rd d); try assumption; try lia; fold x.
    + rewrite t0. exact O.
    + intros wi L2 S2 H1 H2 H3. apply HQ; try assumption.
      replace (s2_sl x + Z.of_nat (Z.to_nat (level - s2_sl x)))%Z with level in H3 by lia. exact H3.
Qed.
End Facts.
