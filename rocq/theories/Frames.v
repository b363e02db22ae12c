(** What each effect does to one granule *)
From Coq Require Import NArith ZArith List Bool Lia ZifyBool ZifyN.
From Verif Require Import Bits S2tte S2tteFacts State Granule Wp RecFields Measure RmiRtt RmiRealm Psci RmiRec
  Inv InvTree InvStep InvStep2 InvStep3 Effects.
Import ListNotations.
Local Open Scope N_scope.

Definition rtt_upd (g g' : granule) : Prop := g_state g = RTT /\ g_state g' = RTT /\ exists f, g_mem g' = CW f.
Definition gone (g g' : granule) : Prop := g' = mkG DELEGATED 0 czero.

Definition gchange (c : cfg) (lab : label) (z : N) (g g' : granule) : Prop :=
  g' = g \/
  match lab with
  | LEntry _ _ _ _ _ => rtt_upd g g'
  | LAssign _ _ _ _ pa f => rtt_upd g g' \/ (z = pa /\ g_state g = DELEGATED /\ g' = mkG DATA 0 (CW f))
  | LRelease _ _ _ _ pa => rtt_upd g g' \/ (z = pa /\ g_state g = DATA /\ gone g g')
  | LAttach _ _ _ _ b => rtt_upd g g' \/ (z = b /\ g_state g = DELEGATED /\ g_state g' = RTT /\ exists f, g_mem g' = CW f)
  | LFold _ _ _ _ b | LDestroy _ _ _ _ b => rtt_upd g g' \/ (z = b /\ g_state g = RTT /\ gone g g')
  | LRd rd d d' => z = rd /\ g_state g = RD /\ g_mem g = CRd d /\ g' = mkG RD (g_ref g) (CRd d') /\ rd_le c d d'
  | LRec a r r' n => z = a /\ g_state g = REC /\ g_mem g = CRec r /\ g' = mkG REC n (CRec r') /\ n <= 1
  | LFree a g1 => z = a /\ g' = g1 /\ ((fr g /\ fr g') \/ word_change g g')
  | LRecCreate rd a d d' rc =>
      (z = rd /\ g_state g = RD /\ g_mem g = CRd d /\ g' = mkG RD (g_ref g + 1) (CRd d') /\ rd_le c d d') \/
      (z = a /\ g_state g = DELEGATED /\ g' = mkG REC 0 (CRec rc)) \/
      (In z (r_aux rc) /\ g_state g = DELEGATED /\ exists f, g' = mkG REC_AUX 0 (CW f))
  | LRecDestroy rd a rc =>
      (z = rd /\ g_state g = RD /\ exists d, g_mem g = CRd d /\ g' = mkG RD (g_ref g - 1) (CRd d)) \/
      (z = a /\ g_state g = REC /\ g_mem g = CRec rc /\ g_ref g = 0 /\ gone g g') \/
      (In z (r_aux rc) /\ g_state g = REC_AUX /\ gone g g')
  | LRealmCreate rd d =>
      (z = rd /\ g_state g = DELEGATED /\ g' = mkG RD 0 (CRd d)) \/
      (root_idx (g_rtt (rd_ctx d)) (num_root_rtts (rd_ctx d)) z <> None /\ g_state g = DELEGATED /\ g_state g' = RTT /\ exists f, g_mem g' = CW f)
  | LRealmDestroy rd d =>
      (z = rd /\ g_state g = RD /\ g_mem g = CRd d /\ g_ref g = 0 /\ gone g g') \/
      (root_idx (g_rtt (rd_ctx d)) (num_root_rtts (rd_ctx d)) z <> None /\ g_state g = RTT /\ gone g g')
  end.

Lemma geff_gran : forall c gh G V lab gh' G' V', Inv c gh G V -> geff c gh G V lab gh' G' V' -> forall z, gchange c lab z (G z) (G' z).
Proof.
  intros c gh G V lab gh' G' V' I H z. unfold gchange.
  assert (OW : forall a rd l t, own gh a = Some (rd, l, t) -> g_state (G a) = RTT) by (intros; eapply own_rtt; eassumption).
  assert (RU : forall a rd l t n f, own gh a = Some (rd, l, t) -> G' a = mkG RTT n (CW f) -> rtt_upd (G a) (G' a)).
  { intros a rd l t n f O E. rewrite E. split; [eauto|]. split; [reflexivity|]. eexists. reflexivity. }
  destruct H.
  - destruct (N.eq_dec z a) as [->|]; [right; eauto|left; auto].
  - destruct (N.eq_dec z a) as [->|na]; [right; left; eauto|].
    destruct (N.eq_dec z pa) as [->|]; [right; right; auto|left; auto].
  - destruct (N.eq_dec z a) as [->|na]; [right; left; eauto|].
    destruct (N.eq_dec z pa) as [->|]; [right; right|left; auto].
    split; [reflexivity|]. split; [|assumption].
    pose proof (inv_own _ _ _ _ I _ _ _ _ _ H H0) as T. pose proof (t_entries _ _ _ _ _ _ _ T i H1) as [_ EE].
    assert (D : dmap gh pa = Some (rd, 512 * t + i)).
    { assert (K : forall q, q / pg 3 = 512 * t + i -> dmap gh (pa + q mod pg 3 * 4096) = Some (rd, q))
        by (destruct (ent gh a i); try discriminate; injection H2 as ->; apply EE).
      rewrite <- (K (512 * t + i)); [|rewrite pg_3; apply N.div_1_r]. rewrite pg_3, N.mod_1_r, N.mul_0_l, N.add_0_r. reflexivity. }
    apply (i_dmap _ _ _ _ I _ _ _ D).
  - destruct (N.eq_dec z a) as [->|na]; [right; left; eauto|].
    destruct (N.eq_dec z b) as [->|]; [right; right|left; auto].
    split; [reflexivity|]. split; [assumption|]. match goal with H : G' b = _ |- _ => rewrite H end. split; [reflexivity|eexists; reflexivity].
  - destruct (N.eq_dec z a) as [->|na]; [right; left; eauto|].
    destruct (N.eq_dec z b) as [->|]; [right; right|left; auto].
    split; [reflexivity|]. split; [|assumption]. destruct (own_child _ _ _ _ I _ _ _ _ _ _ H H1 H2) as (Ob & _). eauto.
  - destruct (N.eq_dec z a) as [->|na]; [right; left; eauto|].
    destruct (N.eq_dec z b) as [->|]; [right; right|left; auto].
    split; [reflexivity|]. split; [|assumption]. destruct (own_child _ _ _ _ I _ _ _ _ _ _ H H1 H2) as (Ob & _). eauto.
  - destruct (N.eq_dec z rd) as [->|]; [right|left; auto]. destruct H as [S M]. auto 8.
  - destruct (N.eq_dec z r) as [->|]; [right|left; auto]. destruct H as [S M]. auto 8.
  - destruct (N.eq_dec z z0) as [->|]; [right|left; auto]. split; [reflexivity|]. split; [reflexivity|].
    destruct H as [(A & B & _)|A]; auto.
  - destruct (N.eq_dec z rd) as [->|n1]; [right; left; destruct H as [S M]; auto 8|].
    destruct (N.eq_dec z r) as [->|n2]; [right; right; left; auto|].
    destruct (in_dec N.eq_dec z (r_aux rc)) as [A|A]; [right; right; right|left; auto].
    split; [exact A|]. split; [apply H4; exact A|]. match goal with H : forall z, In z _ -> exists f, _ |- _ => apply H; exact A end.
  - destruct (N.eq_dec z (r_g_rd rc)) as [->|n1]; [right; left; destruct H0 as [S M]; eauto 8|].
    destruct (N.eq_dec z r) as [->|n2]; [right; right; left; destruct H as [S M]; auto 8|].
    destruct (in_dec N.eq_dec z (r_aux rc)) as [A|A]; [right; right; right|left; auto].
    split; [exact A|]. split; [|match goal with H : forall z, In z _ -> G' z = _ |- _ => apply H; exact A end].
    destruct H as [S M]. destruct (i_rec _ _ _ _ I r S) as (_ & rc2 & d2 & M2 & _ & _ & _ & X). rewrite M in M2. injection M2 as <-.
    apply (i_auxo _ _ _ _ I _ _ (X z A)).
  - destruct (N.eq_dec z rd) as [->|n1]; [right; left; auto|].
    destruct (root_idx (g_rtt (rd_ctx d)) (num_root_rtts (rd_ctx d)) z) as [k|] eqn:K; [right; right|left; auto].
    split; [discriminate|]. apply root_idx_some in K. destruct K as [-> K].
    split; [apply H0, K|]. match goal with H : forall k, _ -> exists f, _ |- _ => destruct (H k K) as (f & E & _) end.
    rewrite E. split; [reflexivity|eexists; reflexivity].
  - destruct (N.eq_dec z rd) as [->|n1]; [right; left; destruct H as [S M]; auto 8|].
    destruct (root_idx (g_rtt (rd_ctx d)) (num_root_rtts (rd_ctx d)) z) as [k|] eqn:K; [right; right|left; auto].
    split; [discriminate|]. apply root_idx_some in K. destruct K as [-> K].
    split; [|match goal with H : forall k, _ -> G' _ = _ |- _ => apply H; exact K end]. eapply OW. apply (i_root _ _ _ _ I _ _ _ H K).
Qed.

(* ------------------------------------------------------------------ *)
(** * RECs *)

Definition rec_lab (lab : label) : bool :=
  match lab with LRec _ _ _ _ | LRecCreate _ _ _ _ _ | LRecDestroy _ _ _ => true | _ => false end.

Lemma fr_state : forall g, fr g -> g_state g = NS \/ g_state g = DELEGATED.
Proof. intros g [(H & _)| ->]; auto. Qed.

Lemma rec_frame : forall c gh G V lab gh' G' V', Inv c gh G V -> geff c gh G V lab gh' G' V' -> rec_lab lab = false ->
  forall a, g_state (G a) = REC \/ g_state (G' a) = REC -> G' a = G a.
Proof.
  intros c gh G V lab gh' G' V' I H L a Ha. pose proof (geff_gran _ _ _ _ _ _ _ _ I H a) as K. unfold gchange, rtt_upd, gone in K.
  destruct K as [K|K]; [exact K|]. exfalso.
  destruct lab; try discriminate L;
    repeat match goal with
    | H : _ \/ _ |- _ => destruct H
    | H : _ /\ _ |- _ => destruct H
    | H : exists _, _ |- _ => destruct H
    | H : G' a = mkG _ _ _ |- _ => rewrite H in *; clear H
    | H : G' a = ?g |- _ => is_var g; subst g
    | H : fr ?g |- _ => apply fr_state in H
    | H : word_change _ _ |- _ => unfold word_change in H
    end; cbn [g_state] in *; congruence.
Qed.

Lemma recs_frame : forall c gh G V labs gh' G' V', geffs c gh G V labs gh' G' V' -> Inv c gh G V -> forallb (fun l => negb (rec_lab l)) labs = true ->
  forall a, g_state (G a) = REC \/ g_state (G' a) = REC -> G' a = G a.
Proof.
  intros c gh G V labs gh' G' V' H. induction H as [gh G V G' V' HG HV|gh G V lab gh1 G1 V1 labs gh' G' V' H1 H2 IH];
    intros I L a Ha; [apply HG|].
  cbn [forallb] in L. apply andb_prop in L. destruct L as [L1 L2]. pose proof (geff_inv _ _ _ _ _ _ _ _ I H1) as I1.
  apply negb_true_iff in L1. pose proof (rec_frame _ _ _ _ _ _ _ _ I H1 L1 a) as F1. pose proof (IH I1 L2 a) as F2.
  destruct Ha as [Ha|Ha].
  - rewrite F2, F1; auto. left. rewrite F1; auto.
  - pose proof (F2 (or_intror Ha)) as E2. rewrite E2. apply F1. right. rewrite <- E2. exact Ha.
Qed.

(** A realm descriptor that exists after an effect existed before with the same
    parameters, or was created *)
Definition rd_grows (d d' : rdesc) : Prop := rd_state d <= rd_state d' /\ rd_fixed d' = rd_fixed d.
Lemma rd_frame : forall c gh G V lab gh' G' V', Inv c gh G V -> geff c gh G V lab gh' G' V' ->
  forall a d', is_rd G' a d' -> (exists d, is_rd G a d /\ rd_grows d d') \/ (lab = LRealmCreate a d' /\ g_state (G a) = DELEGATED).
Proof.
  intros c gh G V lab gh' G' V' I H a d' [S M]. pose proof (geff_gran _ _ _ _ _ _ _ _ I H a) as K. unfold gchange, rtt_upd, gone in K.
  assert (GR : forall d1 d2, rd_le c d1 d2 -> rd_grows d1 d2) by (intros d1 d2 (_ & _ & _ & K1 & K2); split; assumption).
  assert (GI : forall d1, rd_grows d1 d1) by (intro; split; reflexivity).
  destruct K as [K|K]; [left; exists d'; rewrite K in *; split; [split; assumption|apply GI]|].
  destruct lab;
    repeat match goal with
    | H : _ \/ _ |- _ => destruct H
    | H : _ /\ _ |- _ => destruct H
    | H : exists _, _ |- _ => destruct H
    | H : G' a = mkG _ _ _ |- _ => rewrite H in *; clear H
    | H : G' a = ?g |- _ => is_var g; subst g
    | H : fr ?g |- _ => apply fr_state in H
    | H : word_change _ _ |- _ => unfold word_change in H
    end; cbn [g_state g_mem] in *; try congruence;
    try (injection M as <-; left; eexists; split; [split; eassumption|auto]);
    try (injection M as <-; right; split; congruence).
Qed.
Lemma rds_frame : forall c gh G V labs gh' G' V', geffs c gh G V labs gh' G' V' -> Inv c gh G V ->
  forall a d', is_rd G' a d' -> (exists d, is_rd G a d /\ rd_grows d d') \/ (exists d, In (LRealmCreate a d) labs /\ rd_fixed d' = rd_fixed d).
Proof.
  intros c gh G V labs gh' G' V' H. induction H as [gh G V G' V' HG HV|gh G V lab gh1 G1 V1 labs gh' G' V' H1 H2 IH]; intros I a d' R.
  - left. exists d'. split; [|split; reflexivity]. destruct R as [S M]. rewrite HG in S, M. split; assumption.
  - destruct (IH (geff_inv _ _ _ _ _ _ _ _ I H1) a d' R) as [(d1 & R1 & E1 & E2)|(d1 & K1 & K2)].
    + destruct (rd_frame _ _ _ _ _ _ _ _ I H1 _ _ R1) as [(d2 & R2 & E3 & E4)|(-> & _)].
      * left. exists d2. split; [exact R2|]. split; [etransitivity; eassumption|congruence].
      * right. exists d1. split; [left; reflexivity|exact E2].
    + right. exists d1. split; [right; exact K1|exact K2].
Qed.

(** One REC changes *)
Lemma rec_one : forall c gh G V a r r' n gh' G' V', Inv c gh G V -> geff c gh G V (LRec a r r' n) gh' G' V' ->
  is_rec G a r /\ G' a = mkG REC n (CRec r') /\ (forall z, z <> a -> G' z = G z) /\ gh' = gh /\ (forall z, V' z = V z).
Proof.
  intros c gh G V a r r' n gh' G' V' I H. inversion H; subst. auto.
Qed.
