(** Symbolic execution of loops over lists of granules *)
From Coq Require Import NArith ZArith List Bool Lia ZifyBool ZifyN.
From Verif Require Import Bits S2tte S2tteFacts State Granule Wp RecFields Measure RmiGranule RmiRtt RmiRealm Psci RmiRec
  Inv InvTree InvStep InvStep2 InvStep3 Effects CmdLib CmdFold.
Import ListNotations.
Local Open Scope N_scope.

Definition memN (z : N) (l : list N) : bool := existsb (N.eqb z) l.
Lemma memN_in : forall z l, memN z l = true <-> In z l.
Proof.
  intros z l. unfold memN. rewrite existsb_exists. split.
  - intros (x & H & E). apply N.eqb_eq in E. subst. exact H.
  - intro H. exists z. split; [exact H|apply N.eqb_refl].
Qed.
Lemma memN_out : forall z l, memN z l = false <-> ~ In z l.
Proof. intros z l. rewrite <- memN_in. destruct (memN z l); split; congruence. Qed.
Lemma memN_cons : forall z a l, memN z (a :: l) = (z =? a) || memN z l.
Proof. reflexivity. Qed.
Lemma memN_rev : forall z l, memN z (rev l) = memN z l.
Proof.
  intros. destruct (memN z l) eqn:E.
  - apply memN_in. rewrite <- in_rev. apply memN_in. exact E.
  - apply memN_out. rewrite <- in_rev. apply memN_out. exact E.
Qed.
Lemma memN_app : forall z l m, memN z (l ++ m) = memN z l || memN z m.
Proof. intros. unfold memN. apply existsb_app. Qed.

Lemma nodup_app_l : forall (l m : list N), NoDup (l ++ m) -> NoDup l.
Proof.
  induction l as [|a l IH]; intros m H; [constructor|]. inversion H as [|? ? Na ND]; subst. constructor; [|eapply IH; exact ND].
  intro K. apply Na, in_or_app. left. exact K.
Qed.

Section Rules.
Variable E : Prop.
Implicit Types (L S : N -> bool) (G : N -> granule) (V : N -> bool) (T : list tlbe).

Lemma wp_unlock_all : forall l L S G V T (Q : _ -> state -> Prop),
  NoDup l -> (forall g, In g l -> L g = true /\ uok (G g)) ->
  (forall L', (forall z, L' z = negb (memN z l) && L z) -> Q tt (mkS L' S G V T)) ->
  wp E (unlock_all l) (mkS L S G V T) Q.
Proof.
  induction l as [|a l IH]; intros L S G V T Q ND H HQ; cbn [unlock_all].
  - apply wp_ret, HQ. intro z. reflexivity.
  - inversion ND as [|? ? Na ND']; subst.
    apply wp_bind, wp_granule_unlock; [apply H; left; reflexivity|apply H; left; reflexivity|].
    apply IH; [exact ND'| |].
    + intros g Hg. rewrite upd_other by congruence. apply H. right. exact Hg.
    + intros L' HL'. apply HQ. intro z. rewrite HL', memN_cons. unfold upd. destruct (N.eqb_spec z a) as [->|]; cbn; [|reflexivity].
      apply andb_false_r.
Qed.

Lemma wp_transition_all : forall l st L S G V T (Q : _ -> state -> Prop),
  NoDup l -> (forall g, In g l -> L g = true /\ unlocked_inv st (g_ref (G g)) = true) ->
  (forall L' G', (forall z, L' z = negb (memN z l) && L z) ->
     (forall z, G' z = if memN z l then mkG st (g_ref (G z)) (g_mem (G z)) else G z) -> Q tt (mkS L' S G' V T)) ->
  wp E (transition_all l st) (mkS L S G V T) Q.
Proof.
  induction l as [|a l IH]; intros st L S G V T Q ND H HQ; cbn [transition_all].
  - apply wp_ret, HQ; intro z; reflexivity.
  - inversion ND as [|? ? Na ND']; subst.
    apply wp_bind, wp_unlock_transition; [apply H; left; reflexivity|apply H; left; reflexivity|].
    apply IH; [exact ND'| |].
    + intros g Hg. rewrite !upd_other by congruence. apply H. right. exact Hg.
    + intros L' G' HL' HG'. apply HQ; intro z; [rewrite HL'|rewrite HG']; rewrite memN_cons; unfold upd;
        destruct (N.eqb_spec z a) as [->|]; cbn; try reflexivity.
      * apply andb_false_r.
      * apply memN_out in Na. rewrite Na. reflexivity.
Qed.

(** A list of granules is locked in order until one is not in the state *)
Lemma wp_lock_roots : forall c l locked L S G V T (Q : _ -> state -> Prop),
  NoDup l -> (forall g, In g l -> L g = false) -> (forall z, uok (G z)) ->
  (forall L', (forall z, L' z = memN z l || L z) ->
     (forall g, In g l -> find_granule c g = true /\ g_state (G g) = DELEGATED) -> Q (true, rev l ++ locked) (mkS L' S G V T)) ->
  (forall L' l1 l2, l = l1 ++ l2 -> l2 <> [] -> (forall z, L' z = memN z l1 || L z) ->
     (exists g l3, l2 = g :: l3 /\ (find_granule c g = false \/ g_state (G g) <> DELEGATED)) ->
     Q (false, rev l1 ++ locked) (mkS L' S G V T)) ->
  wp E (lock_roots c l locked) (mkS L S G V T) Q.
Proof.
  intros c l. induction l as [|a l IH]; intros locked L S G V T Q ND HL U Q1 Q2; cbn [lock_roots].
  - apply wp_ret. apply (Q1 L); [reflexivity|intros g []].
  - inversion ND as [|? ? Na ND']; subst.
    apply wp_bind, wp_find_lock; [apply HL; left; reflexivity|apply U| |].
    + intros F St. apply IH; [exact ND'| |exact U| |].
      * intros g Hg. rewrite upd_other by congruence. apply HL. right. exact Hg.
      * intros L' HL' A. replace (rev l ++ a :: locked) with (rev (a :: l) ++ locked) by (cbn [rev]; rewrite <- app_assoc; reflexivity).
        apply Q1.
        -- intro z. rewrite HL', memN_cons. unfold upd. destruct (z =? a); cbn; [apply orb_true_r|reflexivity].
        -- intros g [<-|Hg]; [split; assumption|apply A, Hg].
      * intros L' l1 l2 -> ne HL' X.
        replace (rev l1 ++ a :: locked) with (rev (a :: l1) ++ locked) by (cbn [rev]; rewrite <- app_assoc; reflexivity).
        apply (Q2 L' (a :: l1) l2); [reflexivity|exact ne| |exact X].
        intro z. rewrite HL', memN_cons. unfold upd. destruct (z =? a); cbn; [apply orb_true_r|reflexivity].
    + intros L' HL' X. apply wp_ret. apply (Q2 L' [] (a :: l)); [reflexivity|discriminate|exact HL'|]. exists a, l. auto.
Qed.

(** The tables of a realm are emptied and released *)
Lemma wp_free_sl_rtts : forall l L S G V T (Q : _ -> state -> Prop),
  NoDup l -> S SLOT_RTT = false -> (forall g, In g l -> L g = false /\ g_state (G g) = RTT /\ g_ref (G g) = 0) ->
  (forall L' S' G', (forall z, L' z = L z) -> (forall z, S' z = S z) ->
     (forall z, G' z = if memN z l then mkG DELEGATED 0 czero else G z) -> Q tt (mkS L' S' G' V T)) ->
  wp E (free_sl_rtts l) (mkS L S G V T) Q.
Proof.
  induction l as [|a l IH]; intros L S G V T Q ND HS H HQ; cbn [free_sl_rtts].
  - apply wp_ret, HQ; intro z; reflexivity.
  - inversion ND as [|? ? Na ND']; subst. destruct (H a) as (H1 & H2 & H3); [left; reflexivity|].
    apply wp_bind, wp_granule_lock; [exact H1|unfold uok; rewrite H2, H3; reflexivity|exact H2|].
    apply wp_bind, wp_memzero; [exact HS|]. intros S1 HS1.
    apply wp_bind, wp_unlock_transition; [side|updsimp; rewrite H3; reflexivity|].
    apply IH; [exact ND'|rewrite HS1; exact HS| |].
    + intros g Hg. rewrite !upd_other by congruence. apply H. right. exact Hg.
    + intros L' S' G' HL' HS' HG'. apply HQ; intro z.
      * rewrite HL'. unfold upd. destruct (N.eqb_spec z a) as [->|]; [symmetry; exact H1|reflexivity].
      * rewrite HS', HS1. reflexivity.
      * rewrite HG', memN_cons. destruct (N.eqb_spec z a) as [->|]; cbn [orb]; updsimp; [|reflexivity].
        rewrite H3. apply memN_out in Na. rewrite Na. reflexivity.
Qed.

Definition sum_refs (G : N -> granule) (l : list N) : N := fold_right (fun g a => g_ref (G g) + a) 0 l.
Lemma sum_refs_0 : forall G l, sum_refs G l = 0 <-> forall g, In g l -> g_ref (G g) = 0.
Proof.
  intros G l. induction l as [|a l IH]; cbn [sum_refs fold_right].
  - split; [intros _ g []|reflexivity].
  - fold (sum_refs G l). split.
    + intros H g [<-|Hg]; [lia|apply IH; [lia|exact Hg]].
    + intro H. rewrite (H a) by (left; reflexivity). apply IH. intros g Hg. apply H. right. exact Hg.
Qed.
Lemma wp_total_refs : forall l acc L S G V T (Q : _ -> state -> Prop),
  (forall g, In g l -> L g = false /\ g_state (G g) = RTT) -> (forall z, uok (G z)) ->
  (forall L', (forall z, L' z = L z) -> Q (acc + sum_refs G l) (mkS L' S G V T)) ->
  wp E (total_root_rtt_refcount l acc) (mkS L S G V T) Q.
Proof.
  induction l as [|a l IH]; intros acc L S G V T Q H U HQ; cbn [total_root_rtt_refcount].
  - apply wp_ret. cbn [sum_refs fold_right] in HQ. rewrite N.add_0_r in HQ. apply HQ. reflexivity.
  - destruct (H a) as (H1 & H2); [left; reflexivity|].
    apply wp_bind, wp_granule_lock; [exact H1|apply U|exact H2|].
    apply wp_bind, wp_rd_ref. apply wp_bind, wp_granule_unlock; [side|apply U|].
    assert (E2 : forall z, upd (upd L a true) a false z = L z).
    { intro z. unfold upd. destruct (N.eqb_spec z a) as [->|]; [symmetry; exact H1|reflexivity]. }
    apply IH; [|exact U|].
    + intros g Hg. rewrite E2. apply H. right. exact Hg.
    + intros L' HL'. cbn [sum_refs fold_right] in HQ. fold (sum_refs G l) in HQ. rewrite N.add_assoc in HQ. apply HQ.
      intro z. rewrite HL'. apply E2.
Qed.
End Rules.

Lemma root_list_in : forall base n z, In z (root_list base n) <-> exists k, k < n /\ z = base + k * 4096.
Proof.
  intros base n z. unfold root_list. rewrite in_map_iff. split.
  - intros (i & <- & H). apply in_seq in H. exists (N.of_nat i). split; [lia|reflexivity].
  - intros (k & Hk & ->). exists (N.to_nat k). split; [rewrite N2Nat.id; reflexivity|]. apply in_seq. lia.
Qed.
Lemma root_list_nodup : forall base n, NoDup (root_list base n).
Proof.
  intros base n. unfold root_list. apply FinFun.Injective_map_NoDup; [|apply seq_NoDup].
  intros i j H. change GRANULE_SIZE with 4096 in H. lia.
Qed.
Lemma root_list_idx : forall base n z, memN z (root_list base n) = false <-> root_idx base n z = None.
Proof.
  intros. rewrite memN_out, root_list_in, root_idx_none. split.
  - intros H k Hk E. apply H. eauto.
  - intros H (k & Hk & E). exact (H k Hk E).
Qed.
Lemma root_list_mem : forall base n k, k < n -> memN (base + k * 4096) (root_list base n) = true.
Proof. intros. apply memN_in, root_list_in. eauto. Qed.
