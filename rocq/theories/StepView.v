(** How each effect changes the entry that describes a page of a realm *)
From Coq Require Import NArith ZArith List Bool Lia ZifyBool ZifyN.
From Verif Require Import Bits S2tte S2tteFacts State Granule Wp RecFields Measure RmiRtt RmiRealm Psci RmiRec Rsi RecRun
  Arch ArchFacts Mmu Machine Spec Inv InvTree MmuFacts InvStep InvStep2 InvStep3 Effects Frames CmdLib CmdData CmdRipas CmdAll MInv MStep View.
Import ListNotations.
Local Open Scope N_scope.

(** The entry of a page: its level and its meaning *)
Definition lent : Type := (Z * entry)%type.
Definition sub_e (l : Z) (e : entry) (p : N) : entry := unfold_e (l + 1) e ((p / pg (l + 1)) mod 512).

(** [hit l0 n r rd p]: the page [p] of [r] is in the range of entry [n] of level [l0] of [rd] *)
Definition hit (rd r : N) (l0 : Z) (n p : N) : bool := (r =? rd) && (p / pg l0 =? n).

Definition leafchg (lab : label) (r p : N) (u u' : lent) : Prop :=
  match lab with
  | LEntry rd l0 n e0 e1 => if hit rd r l0 n p then u = (l0, e0) /\ u' = (l0, e1) else u' = u
  | LAssign rd n e0 e1 _ _ => if hit rd r 3 n p then u = (3%Z, e0) /\ u' = (3%Z, e1) else u' = u
  | LRelease rd n e0 e1 _ => if hit rd r 3 n p then u = (3%Z, e0) /\ u' = (3%Z, e1) else u' = u
  | LAttach rd l0 n e0 _ => if hit rd r l0 n p then u = (l0, e0) /\ u' = ((l0 + 1)%Z, sub_e l0 e0 p) else u' = u
  | LFold rd l0 n e1 _ => if hit rd r l0 n p then u = ((l0 + 1)%Z, sub_e l0 e1 p) /\ u' = (l0, e1) else u' = u
  | LDestroy rd l0 n e1 _ => if hit rd r l0 n p then asg (snd u) = None /\ u' = (l0, e1) else u' = u
  | _ => u' = u
  end.

Section One.
Variables (c : cfg) (gh : ghost) (G : N -> granule) (V : N -> bool).
Hypothesis I : Inv c gh G V.

Lemma hit_true : forall rd r l0 n p, hit rd r l0 n p = true <-> r = rd /\ p / pg l0 = n.
Proof. intros. unfold hit. rewrite andb_true_iff, !N.eqb_eq. reflexivity. Qed.

(** The table of level [l0] above a leaf *)
Lemma hit_index : forall t i k, i < 512 -> k = 512 * t + i -> k / 512 = t /\ k mod 512 = i.
Proof. intros t i k Hi ->. split; lia. Qed.

Lemma leaf_step : forall lab gh' G' V' r d p l b e, geff c gh G V lab gh' G' V' -> is_rd G r d -> (forall d0, lab <> LRealmDestroy r d0) ->
  Leaf gh r p l b e -> exists l' b' e', Leaf gh' r p l' b' e' /\ leafchg lab r p (l, e) (l', e').
Proof.
  intros lab gh' G' V' r d p l b e GE R ND LF.
  assert (SAME : forall gh1, own gh1 b = own gh b -> ent gh1 b ((p / pg l) mod 512) = ent gh b ((p / pg l) mod 512) -> Leaf gh1 r p l b e).
  { intros gh1 E1 E2. destruct LF as (O & E & T). split; [congruence|]. split; [congruence|exact T]. }
  (* one entry of a table changes *)
  assert (UPD : forall rd l0 t i a e1 gh1, own gh a = Some (rd, l0, t) -> i < 512 -> is_table_e e1 = false ->
     (forall z, own gh1 z = own gh z) -> (forall z, ent gh1 z = upd (ent gh) a (upd (ent gh a) i e1) z) -> is_table_e (ent gh a i) = false ->
     exists l' b' e', Leaf gh1 r p l' b' e' /\ if hit rd r l0 (512 * t + i) p then (l, e) = (l0, ent gh a i) /\ (l', e') = (l0, e1) else (l', e') = (l, e)).
  { intros rd l0 t i a e1 gh1 O Hi T1 HO HE T0. destruct (hit rd r l0 (512 * t + i) p) eqn:Hh.
    - apply hit_true in Hh. destruct Hh as [-> Hn]. destruct (hit_index t i _ Hi Hn) as [K1 K2].
      destruct (leaf_unique _ _ _ _ I rd p l b e l0 a (ent gh a i)) as (-> & -> & ->); [exact LF|split; [rewrite K1; exact O|rewrite K2; auto]|].
      exists l0, a, e1. split; [|auto]. split; [rewrite HO, K1; exact O|]. split; [|exact T1]. rewrite HE, upd_same, K2, upd_same. reflexivity.
    - exists l, b, e. split; [|reflexivity]. apply SAME; [apply HO|]. rewrite HE. unfold upd at 1. destruct (N.eqb_spec b a) as [->|]; [|reflexivity].
      apply upd_other. intro E0. destruct LF as (O' & _). rewrite O in O'. injection O' as -> -> ->.
      enough (hit r r l (512 * (p / pg l / 512) + i) p = true) by congruence. apply hit_true. split; [reflexivity|]. rewrite <- E0. apply div512. }
  assert (LV : forall a rd l0 t d0, own gh a = Some (rd, l0, t) -> is_rd G rd d0 -> (l0 <= 3)%Z).
  { intros a rd l0 t d0 O Rd. apply (t_level_ok _ _ _ _ _ _ _ (inv_own _ _ _ _ I _ _ _ _ _ O Rd)). }
  destruct GE as [rd l0 t i a d0 e' f' G' O Rd Hi T0 T1 _ _ _ _ _|rd t i a d0 e' f' pa fd G' O Rd Hi _ T0 A1 _ _ _ _ _ _ _
    |rd t i a d0 e' f' pa G' O Rd Hi A0 A1 T1 _ _ _ _ _|rd l0 t i a d0 b0 f' fb G' O Rd Hi Hl _ Sb _ T0 _ _ _ _ _ _
    |rd l0 t i a d0 b0 e' f' G' O Rd Hi Te T1 _ Hu _ _ _ _|rd l0 t i a d0 b0 e' f' G' O Rd Hi Te Ee Z _ _ _ _
    |rd d0 d' G'|r0 rc rc' n G'|z0 G'|rd d0 d' r0 rc G'|r0 rc d0 G'|rd d0 G' V' Sd Sr|rd d0 G' V' Rd Z1 Z2]; cbn [leafchg].
  - apply (UPD rd l0 t i a e'); auto.
  - apply (UPD rd 3%Z t i a e'); auto. destruct e'; try discriminate A1; reflexivity.
  - apply (UPD rd 3%Z t i a e'); auto. destruct (ent gh a i); try discriminate A0; reflexivity.
  - (* attach *)
    assert (nba : b0 <> a). { intros ->. apply (own_rtt _ _ _ _ I) in O. congruence. }
    assert (Ob : own gh b0 = None). { destruct (own gh b0) as [[[x y] z]|] eqn:E0; [|reflexivity]. apply (own_rtt _ _ _ _ I) in E0. congruence. }
    destruct (hit rd r l0 (512 * t + i) p) eqn:Hh.
    + apply hit_true in Hh. destruct Hh as [-> Hn]. destruct (hit_index t i _ Hi Hn) as [K1 K2].
      destruct (leaf_unique _ _ _ _ I rd p l b e l0 a (ent gh a i)) as (-> & -> & ->); [exact LF|split; [rewrite K1; exact O|rewrite K2; auto]|].
      exists (l0 + 1)%Z, b0, (sub_e l0 (ent gh a i) p). split; [|auto].
      split; [cbn; rewrite upd_same, <- pnum_succ, Hn by exact Hl; reflexivity|]. split.
      * cbn. rewrite upd_same. reflexivity.
      * unfold sub_e. rewrite unfold_nontable. exact T0.
    + exists l, b, e. split; [|reflexivity].
      assert (nb : b <> b0) by (intros ->; destruct LF as (O' & _); congruence).
      apply SAME; cbn; rewrite ?upd_other by assumption; [reflexivity|].
      unfold upd at 1. destruct (N.eqb_spec b a) as [->|]; [|reflexivity].
      apply upd_other. intro E0. destruct LF as (O' & _). rewrite O in O'. injection O' as -> -> ->.
      enough (hit r r l (512 * (p / pg l / 512) + i) p = true) by congruence. apply hit_true. split; [reflexivity|]. rewrite <- E0. apply div512.
  - (* fold *)
    destruct (own_child _ _ _ _ I _ _ _ _ _ _ O Hi Te) as (Ob & L3).
    assert (nba : b0 <> a). { intros ->. rewrite O in Ob. injection Ob as E1 _. lia. }
    destruct (hit rd r l0 (512 * t + i) p) eqn:Hh.
    + apply hit_true in Hh. destruct Hh as [-> Hn]. destruct (hit_index t i _ Hi Hn) as [K1 K2].
      assert (Hj : (p / pg (l0 + 1)) mod 512 < 512) by apply mod512_lt.
      destruct (leaf_unique _ _ _ _ I rd p l b e (l0 + 1)%Z b0 (sub_e l0 e' p)) as (-> & -> & ->); [exact LF| |].
      { split; [rewrite <- pnum_succ, Hn by exact L3; exact Ob|]. split; [unfold sub_e; apply Hu, Hj|]. unfold sub_e. rewrite unfold_nontable. exact T1. }
      exists l0, a, e'. split; [|auto]. split; [cbn; rewrite upd_other by auto; rewrite K1; exact O|]. split; [|exact T1].
      cbn. rewrite upd_same, K2, upd_same. reflexivity.
    + exists l, b, e. split; [|reflexivity].
      assert (nb : b <> b0).
      { intros ->. destruct LF as (O' & _). rewrite Ob in O'. injection O' as -> <- E0.
        enough (hit r r l0 (512 * t + i) p = true) by congruence. apply hit_true. split; [reflexivity|]. rewrite pnum_succ by exact L3. auto. }
      apply SAME; cbn; rewrite ?upd_other by assumption; [reflexivity|].
      unfold upd at 1. destruct (N.eqb_spec b a) as [->|]; [|reflexivity].
      apply upd_other. intro E0. destruct LF as (O' & _). rewrite O in O'. injection O' as -> -> ->.
      enough (hit r r l (512 * (p / pg l / 512) + i) p = true) by congruence. apply hit_true. split; [reflexivity|]. rewrite <- E0. apply div512.
  - (* destroy *)
    destruct (own_child _ _ _ _ I _ _ _ _ _ _ O Hi Te) as (Ob & L3).
    assert (nba : b0 <> a). { intros ->. rewrite O in Ob. injection Ob as E1 _. lia. }
    destruct (hit rd r l0 (512 * t + i) p) eqn:Hh.
    + apply hit_true in Hh. destruct Hh as [-> Hn]. destruct (hit_index t i _ Hi Hn) as [K1 K2].
      pose proof (inv_own _ _ _ _ I _ _ _ _ _ Ob Rd) as TB.
      assert (Zc : cnt (ent gh b0) = 0) by (rewrite <- (t_ref _ _ _ _ _ _ _ TB); exact Z). rewrite cnt_0 in Zc.
      destruct (uncounted_noasg _ (Zc ((p / pg (l0 + 1)) mod 512) (mod512_lt _))) as (N1 & N2).
      destruct (leaf_unique _ _ _ _ I rd p l b e (l0 + 1)%Z b0 (ent gh b0 ((p / pg (l0 + 1)) mod 512))) as (-> & -> & ->); [exact LF| |].
      { split; [rewrite <- pnum_succ, Hn by exact L3; exact Ob|]. auto. }
      exists l0, a, e'. split; [|auto]. split; [cbn; rewrite upd_other by auto; rewrite K1; exact O|].
      split; [cbn; rewrite upd_same, K2, upd_same; reflexivity|]. rewrite Ee. destruct (_ <? _); reflexivity.
    + exists l, b, e. split; [|reflexivity].
      assert (nb : b <> b0).
      { intros ->. destruct LF as (O' & _). rewrite Ob in O'. injection O' as -> <- E0.
        enough (hit r r l0 (512 * t + i) p = true) by congruence. apply hit_true. split; [reflexivity|]. rewrite pnum_succ by exact L3. auto. }
      apply SAME; cbn; rewrite ?upd_other by assumption; [reflexivity|].
      unfold upd at 1. destruct (N.eqb_spec b a) as [->|]; [|reflexivity].
      apply upd_other. intro E0. destruct LF as (O' & _). rewrite O in O'. injection O' as -> -> ->.
      enough (hit r r l (512 * (p / pg l / 512) + i) p = true) by congruence. apply hit_true. split; [reflexivity|]. rewrite <- E0. apply div512.
  - exists l, b, e. split; [exact LF|reflexivity].
  - exists l, b, e. split; [exact LF|reflexivity].
  - exists l, b, e. split; [exact LF|reflexivity].
  - exists l, b, e. split; [exact LF|reflexivity].
  - exists l, b, e. split; [exact LF|reflexivity].
  - exists l, b, e. split; [|reflexivity]. unfold create_ghost.
    assert (Eb : root_idx (g_rtt (rd_ctx d0)) (num_root_rtts (rd_ctx d0)) b = None).
    { apply root_idx_none. intros k Hk ->. destruct LF as (O & _). apply (own_rtt _ _ _ _ I) in O. destruct (Sr k Hk). congruence. }
    apply SAME; cbn; rewrite Eb; reflexivity.
  - exists l, b, e. split; [|reflexivity]. unfold destroy_ghost.
    assert (Eb : root_idx (g_rtt (rd_ctx d0)) (num_root_rtts (rd_ctx d0)) b = None).
    { apply root_idx_none. intros k Hk ->. pose proof (i_root _ _ _ _ I _ _ _ Rd Hk) as Ok. destruct LF as (O & _). rewrite Ok in O. injection O as -> _.
      apply (ND d0). reflexivity. }
    apply SAME; cbn; rewrite ?Eb; reflexivity.
Qed.

(** A realm stays until it is destroyed, with the same tables *)
Lemma rd_stays : forall lab gh' G' V' r d, geff c gh G V lab gh' G' V' -> is_rd G r d -> (forall d0, lab <> LRealmDestroy r d0) ->
  exists d', is_rd G' r d' /\ rd_grows d d' /\ rd_ctx d' = rd_ctx d.
Proof.
  intros lab gh' G' V' r d GE [S M] ND. pose proof (geff_gran _ _ _ _ _ _ _ _ I GE r) as K. unfold gchange, rtt_upd, gone in K.
  assert (GR : forall d1 d2, rd_le c d1 d2 -> rd_grows d1 d2 /\ rd_ctx d2 = rd_ctx d1)
    by (intros d1 d2 (K0 & _ & _ & K1 & K2); split; [split; assumption|exact K0]).
  assert (GI : forall d1, rd_grows d1 d1 /\ rd_ctx d1 = rd_ctx d1) by (intro; split; [split|]; reflexivity).
  destruct K as [K|K]; [exists d; unfold is_rd; rewrite K; split; [split; assumption|apply GI]|].
  destruct lab;
    repeat match goal with
    | H : _ \/ _ |- _ => destruct H
    | H : _ /\ _ |- _ => destruct H
    | H : exists _, _ |- _ => destruct H
    | H : fr ?g |- _ => apply fr_state in H
    | H : word_change _ _ |- _ => unfold word_change in H
    end; try congruence;
    try (match goal with H : G' r = mkG RD _ (CRd ?d1) |- _ => exists d1; unfold is_rd; rewrite H; split; [split; reflexivity|] end;
         match goal with H : g_mem (G r) = CRd ?x |- _ => rewrite M in H; injection H as <- end; auto; fail).
Qed.
End One.

(** Sequences of effects *)
Fixpoint leafchgs (labs : list label) (r p : N) (u u' : lent) : Prop :=
  match labs with
  | [] => u' = u
  | lab :: rest => exists u1, leafchg lab r p u u1 /\ leafchgs rest r p u1 u'
  end.
Definition no_destroy (r : N) (labs : list label) : Prop := forall d0, ~ In (LRealmDestroy r d0) labs.

Lemma leafs_step : forall c gh G V labs gh' G' V', geffs c gh G V labs gh' G' V' -> Inv c gh G V ->
  forall r d p l b e, is_rd G r d -> no_destroy r labs -> Leaf gh r p l b e ->
  exists l' b' e' d', Leaf gh' r p l' b' e' /\ leafchgs labs r p (l, e) (l', e') /\ is_rd G' r d' /\ rd_grows d d' /\ rd_ctx d' = rd_ctx d.
Proof.
  intros c gh G V labs gh' G' V' H. induction H as [gh G V G' V' HG HV|gh G V lab gh1 G1 V1 labs gh' G' V' H1 H2 IH]; intros I r d p l b e R ND LF.
  - exists l, b, e, d. split; [exact LF|]. split; [reflexivity|]. split; [unfold is_rd; rewrite HG; exact R|]. split; [split; reflexivity|reflexivity].
  - assert (ND1 : forall d0, lab <> LRealmDestroy r d0) by (intros d0 ->; apply (ND d0); left; reflexivity).
    destruct (leaf_step _ _ _ _ I _ _ _ _ _ _ _ _ _ _ H1 R ND1 LF) as (l1 & b1 & e1 & LF1 & K1).
    destruct (rd_stays _ _ _ _ I _ _ _ _ _ _ H1 R ND1) as (d1 & R1 & (E1 & E2) & E3).
    destruct (IH (geff_inv _ _ _ _ _ _ _ _ I H1) r d1 p l1 b1 e1 R1) as (l' & b' & e' & d' & LF' & K2 & R' & (E4 & E5) & E6); [|exact LF1|].
    { intros d0 IN. apply (ND d0). right. exact IN. }
    exists l', b', e', d'. split; [exact LF'|]. split; [exists (l1, e1); split; assumption|]. split; [exact R'|].
    split; [split; [etransitivity; eassumption|congruence]|congruence].
Qed.

Lemma rds_stay : forall c gh G V labs gh' G' V', geffs c gh G V labs gh' G' V' -> Inv c gh G V ->
  forall r d, is_rd G r d -> no_destroy r labs -> exists d', is_rd G' r d' /\ rd_grows d d' /\ rd_ctx d' = rd_ctx d.
Proof.
  intros c gh G V labs gh' G' V' H. induction H as [gh G V G' V' HG HV|gh G V lab gh1 G1 V1 labs gh' G' V' H1 H2 IH]; intros I r d R ND.
  - exists d. split; [unfold is_rd; rewrite HG; exact R|]. split; [split; reflexivity|reflexivity].
  - assert (ND1 : forall d0, lab <> LRealmDestroy r d0) by (intros d0 ->; apply (ND d0); left; reflexivity).
    destruct (rd_stays _ _ _ _ I _ _ _ _ _ _ H1 R ND1) as (d1 & R1 & (E1 & E2) & E3).
    destruct (IH (geff_inv _ _ _ _ _ _ _ _ I H1) r d1 R1) as (d' & R' & (E4 & E5) & E6).
    { intros d0 IN. apply (ND d0). right. exact IN. }
    exists d'. split; [exact R'|]. split; [split; [etransitivity; eassumption|congruence]|congruence].
Qed.

Lemma leafchgs_app : forall l1 l2 r p u u', leafchgs (l1 ++ l2) r p u u' <-> exists u1, leafchgs l1 r p u u1 /\ leafchgs l2 r p u1 u'.
Proof.
  induction l1 as [|a l1 IH]; intros l2 r p u u'; cbn [app leafchgs].
  - split; [intro H; exists u; auto|intros (u1 & -> & H); exact H].
  - split.
    + intros (u1 & H1 & H2). apply IH in H2. destruct H2 as (u2 & H2 & H3). exists u2. split; [exists u1; auto|exact H3].
    + intros (u2 & (u1 & H1 & H2) & H3). exists u1. split; [exact H1|]. apply IH. exists u2. auto.
Qed.

(** A range of entries of one table *)
Lemma leafchgs_chg : forall rd l0 w es r p m n i u u', leafchgs (chg rd l0 w es n i m) r p u u' ->
  if (r =? rd) && (n <=? p / pg l0) && (p / pg l0 <? n + N.of_nat m)
  then u = (l0, es (i + (p / pg l0 - n))) /\ u' = (l0, w (es (i + (p / pg l0 - n)))) else u' = u.
Proof.
  intros rd l0 w es r p m. induction m as [|m IH]; intros n i u u' H.
  - assert ((r =? rd) && (n <=? p / pg l0) && (p / pg l0 <? n + N.of_nat 0) = false) as -> by lia. exact H.
  - rewrite chg_S in H. cbn [leafchgs leafchg] in H. destruct H as (u1 & H1 & H2). apply IH in H2.
    unfold hit in H1. destruct (N.eqb_spec r rd) as [->|]; cbn [andb] in *; [|congruence].
    set (k := p / pg l0) in *. clearbody k.
    destruct (N.eqb_spec k n) as [->|nk].
    + replace ((n <=? n) && (n <? n + N.of_nat (S m))) with true by lia.
      replace ((n + 1 <=? n) && (n <? n + 1 + N.of_nat m)) with false in H2 by lia.
      destruct H1 as [-> ->]. rewrite N.sub_diag, N.add_0_r. auto.
    + subst u1. destruct (N.leb_spec n k) as [Q|Q]; cbn [andb].
      * replace (n + 1 <=? k) with true in H2 by lia. cbn [andb] in H2.
        replace (k <? n + N.of_nat (S m)) with (k <? n + 1 + N.of_nat m) by lia.
        replace (i + (k - n)) with (i + 1 + (k - (n + 1))) by lia. exact H2.
      * replace (n + 1 <=? k) with false in H2 by lia. exact H2.
Qed.
