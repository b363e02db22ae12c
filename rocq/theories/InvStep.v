(** Preservation of the invariant by the elementary state changes. *)
From Coq Require Import NArith ZArith List Bool Lia ZifyBool ZifyN.
From Verif Require Import Bits S2tte S2tteFacts State Granule Wp RmiRtt RmiRealm RmiRec Inv InvTree.
Import ListNotations.
Local Open Scope N_scope.

Definition set_ent (gh : ghost) (a : N) (e : N -> entry) : ghost :=
  mkGh (own gh) (upd (ent gh) a e) (dmap gh) (recs gh) (auxo gh).
Definition set_dmap (gh : ghost) (a : N) (v : option (N * N)) : ghost :=
  mkGh (own gh) (ent gh) (upd (dmap gh) a v) (recs gh) (auxo gh).
Definition set_own (gh : ghost) (a : N) (v : option (N * Z * N)) : ghost :=
  mkGh (upd (own gh) a v) (ent gh) (dmap gh) (recs gh) (auxo gh).

Lemma some3_inj : forall (a a' : N) (b b' : Z) (c c' : N), Some (a, b, c) = Some (a', b', c') -> a = a' /\ b = b' /\ c = c'.
Proof. intros. inversion H. auto. Qed.

(** Granules that translation table commands may change *)
Definition rttish (st : gstate) : Prop := st = DELEGATED \/ st = DATA \/ st = RTT.

Lemma entry_ok_mono : forall gh gh' x rd l n e,
  (forall b k, own gh b = Some k -> e = ETable b -> own gh' b = Some k) ->
  (forall g k, dmap gh g = Some k -> (exists pa, asg e = Some pa /\ exists p, p / pg l = n /\ g = pa + p mod pg l * 4096) ->
     dmap gh' g = Some k) ->
  entry_ok gh x rd l n e -> entry_ok gh' x rd l n e.
Proof.
  intros gh gh' x rd l n e HO HD [Ve H]. split; [exact Ve|].
  destruct e; try exact H.
  - destruct H as [H1 H2]. split; [exact H1|]. intros p Hp. apply HD; [apply H2, Hp|].
    exists pa. split; [reflexivity|]. exists p. auto.
  - destruct H as [H1 H2]. split; [exact H1|]. intros p Hp. apply HD; [apply H2, Hp|].
    exists pa. split; [reflexivity|]. exists p. auto.
  - destruct H as [H1 H2]. split; [exact H1|]. intros p Hp. apply HD; [apply H2, Hp|].
    exists pa. split; [reflexivity|]. exists p. auto.
  - destruct H as [H1 H2]. split; [exact H1|]. apply HO; [exact H2|reflexivity].
Qed.

Section Frame.
Variables (c : cfg) (gh gh' : ghost) (G G' : N -> granule) (V : N -> bool).
Hypothesis I : Inv c gh G V.

(** Only granules used by translation tables change *)
Definition rtt_frame : Prop := forall z, G' z = G z \/
  (rttish (g_state (G z)) /\ rttish (g_state (G' z))).

Lemma rtt_frame_inv :
  rtt_frame -> recs gh' = recs gh -> auxo gh' = auxo gh ->
  (forall a, g_state (G' a) = DELEGATED -> G' a = mkG DELEGATED 0 czero) ->
  (forall a, g_state (G' a) = DATA -> g_ref (G' a) = 0 /\ (exists f, g_mem (G' a) = CW f) /\ dmap gh' a <> None) ->
  (forall a rd p, dmap gh' a = Some (rd, p) -> g_state (G' a) = DATA /\
    exists l b pa, own gh' b = Some (rd, l, p / pg l / 512) /\
      asg (ent gh' b ((p / pg l) mod 512)) = Some pa /\ a = pa + (p mod pg l) * 4096) ->
  (forall a d k, is_rd G a d -> k < num_root_rtts (rd_ctx d) ->
    own gh' (g_rtt (rd_ctx d) + k * 4096) = Some (a, s2_sl (rd_ctx d), k)) ->
  (forall a, g_state (G' a) = RTT -> own gh' a <> None) ->
  (forall a rd l t, own gh' a = Some (rd, l, t) ->
    exists d, is_rd G rd d /\ table_ok gh' (rd_ctx d) rd l t a (G' a)) ->
  Inv c gh' G' V.
Proof.
  intros F HR HA C1 C2 C3 C4 C5 C6.
  assert (K : forall z, ~ rttish (g_state (G' z)) -> G' z = G z) by (intros z H; destruct (F z) as [E|[_ E]]; [exact E|contradiction]).
  assert (K' : forall z, ~ rttish (g_state (G z)) -> G' z = G z) by (intros z H; destruct (F z) as [E|[E _]]; [exact E|contradiction]).
  assert (RDF : forall a d, is_rd G' a d <-> is_rd G a d).
  { intros a d. split; intros [S M].
    - assert (E : G' a = G a) by (apply K; rewrite S; intros [|[|]]; discriminate). rewrite E in S, M. split; assumption.
    - assert (E : G' a = G a) by (apply K'; rewrite S; intros [|[|]]; discriminate). unfold is_rd. rewrite E. split; assumption. }
  assert (RECF : forall a d, is_rec G' a d <-> is_rec G a d).
  { intros a d. split; intros [S M].
    - assert (E : G' a = G a) by (apply K; rewrite S; intros [|[|]]; discriminate). rewrite E in S, M. split; assumption.
    - assert (E : G' a = G a) by (apply K'; rewrite S; intros [|[|]]; discriminate). unfold is_rec. rewrite E. split; assumption. }
  constructor; try assumption.
  - intros a H. destruct (F a) as [E|[[E|[E|E]] _]]; [rewrite E in H; apply (i_gran _ _ _ _ I a H)| | |];
      apply (i_gran _ _ _ _ I a); congruence.
  - intros a H. assert (E : G' a = G a) by (apply K; rewrite H; intros [|[|]]; discriminate). rewrite E in *. apply (i_ns _ _ _ _ I a H).
  - intro a. destruct (F a) as [E|[_ E]]; [rewrite E; apply (i_kinds _ _ _ _ I)|].
    destruct E as [E|[E|E]]; rewrite E; exact Logic.I.
  - intros a H. rewrite HR. assert (E : G' a = G a) by (apply K; rewrite H; intros [|[|]]; discriminate). rewrite E in *. apply (i_rd _ _ _ _ I a H).
  - intros a d k R. apply C4. apply RDF, R.
  - intros a rd l t O. destruct (C6 a rd l t O) as (d & R & T). exists d. split; [apply RDF, R|exact T].
  - intros v Hv. destruct (i_vmid _ _ _ _ I v Hv) as (rd & d & R & E). exists rd, d. rewrite RDF. auto.
  - intros rd d R. apply RDF in R. apply (i_vmid_set _ _ _ _ I _ _ R).
  - intros rd d rd' d' R R'. apply RDF in R, R'. apply (i_vmid_inj _ _ _ _ I _ _ _ _ R R').
  - intros a H. assert (E : G' a = G a) by (apply K; rewrite H; intros [|[|]]; discriminate). rewrite E in *.
    destruct (i_rec _ _ _ _ I a H) as (H1 & rc & d & H2 & H3 & H4 & H5 & H6). split; [exact H1|].
    exists rc, d. rewrite HR, HA. split; [exact H2|]. split; [apply RDF, H3|]. auto.
  - intros rd a H. rewrite HR in H. destruct (i_recs _ _ _ _ I _ _ H) as (rc & H1 & H2). exists rc. rewrite RECF. auto.
  - intro rd. rewrite HR. apply (i_recs_nodup _ _ _ _ I).
  - intros a rc a' rc' H H'. apply RECF in H, H'. apply (i_idx _ _ _ _ I _ _ _ _ H H').
  - intros a H. rewrite HA. assert (E : G' a = G a) by (apply K; rewrite H; intros [|[|]]; discriminate). rewrite E in *. apply (i_aux _ _ _ _ I a H).
  - intros a r H. rewrite HA in H. destruct (i_auxo _ _ _ _ I a r H) as (H1 & rc & H2 & H3).
    split; [rewrite K' by (rewrite H1; intros [|[|]]; discriminate); exact H1|]. exists rc. rewrite RECF. auto.
Qed.
End Frame.

Lemma rtt_own_some : forall c gh G V, Inv c gh G V -> forall a, g_state (G a) = RTT -> exists k, own gh a = Some k.
Proof. intros c gh G V I a H. pose proof (i_rtt _ _ _ _ I a H). destruct (own gh a); [eauto|contradiction]. Qed.
Lemma own_none : forall c gh G V, Inv c gh G V -> forall a, g_state (G a) <> RTT -> own gh a = None.
Proof.
  intros c gh G V I a H. destruct (own gh a) as [((rd, l), t)|] eqn:O; [|reflexivity].
  exfalso. apply H. eapply own_rtt; eassumption.
Qed.
Lemma dmap_none : forall c gh G V, Inv c gh G V -> forall a, g_state (G a) <> DATA -> dmap gh a = None.
Proof.
  intros c gh G V I a H. destruct (dmap gh a) as [(rd, p)|] eqn:O; [|reflexivity].
  exfalso. apply H. apply (i_dmap _ _ _ _ I _ _ _ O).
Qed.

(* ------------------------------------------------------------------ *)
(** * Rewriting one entry of a table *)

Section Entry.
Variables (c : cfg) (gh : ghost) (G G' : N -> granule) (V : N -> bool).
Hypothesis I : Inv c gh G V.
Variables (a rd t i : N) (l : Z) (d : rdesc) (e' : entry) (f' : N -> N).
Hypothesis O : own gh a = Some (rd, l, t).
Hypothesis R : is_rd G rd d.
Hypothesis Hi : i < 512.
Let x := rd_ctx d.
Let n := 512 * t + i.
Let e := ent gh a i.
Hypothesis W : words_ok (enable_lpa2 x) l f' (upd (ent gh a) i e').

Lemma n_div : n / 512 = t. Proof. unfold n. pose proof (div512 n). lia. Qed.
Lemma n_mod : n mod 512 = i. Proof. unfold n. lia. Qed.

(** The entry keeps its data granule *)
Lemma inv_entry :
  is_table_e e = false -> is_table_e e' = false -> asg e = asg e' -> entry_ok gh x rd l n e' ->
  G' a = mkG RTT (g_ref (G a)) (CW f') -> (forall z, z <> a -> G' z = G z) ->
  Inv c (set_ent gh a (upd (ent gh a) i e')) G' V.
Proof.
  intros T T' A EO Ga F. pose proof (inv_own _ _ _ _ I _ _ _ _ _ O R) as TO. fold x in TO.
  assert (Sa : g_state (G a) = RTT) by apply TO.
  apply (rtt_frame_inv c gh _ G G' V I); try reflexivity.
  - intro z. destruct (N.eq_dec z a) as [->|nz]; [right|left; apply F, nz]. rewrite Sa, Ga. unfold rttish. auto.
  - intros z H. destruct (N.eq_dec z a) as [->|nz]; [rewrite Ga in H; discriminate|]. rewrite F in * by assumption. apply (i_del _ _ _ _ I z H).
  - intros z H. destruct (N.eq_dec z a) as [->|nz]; [rewrite Ga in H; discriminate|]. rewrite F in * by assumption. apply (i_data _ _ _ _ I z H).
  - intros z rd' p H. destruct (i_dmap _ _ _ _ I _ _ _ H) as (H1 & l' & b & pa & H2 & H3 & H4).
    split; [rewrite F; [exact H1|congruence]|]. exists l', b, pa. split; [exact H2|]. split; [|exact H4].
    cbn [ent set_ent]. destruct (N.eq_dec b a) as [->|nb]; [rewrite upd_same|rewrite upd_other by assumption; exact H3].
    destruct (N.eq_dec ((p / pg l') mod 512) i) as [Ei|ni]; [rewrite Ei in *; rewrite upd_same, <- A; exact H3|].
    rewrite upd_other by assumption. exact H3.
  - intros b d' k H1 H2. apply (i_root _ _ _ _ I _ _ _ H1 H2).
  - intros z H. destruct (N.eq_dec z a) as [->|nz]; [cbn; congruence|]. rewrite F in H by assumption. apply (i_rtt _ _ _ _ I z H).
  - intros b rd' l' t' H. change (own (set_ent gh a (upd (ent gh a) i e')) b) with (own gh b) in H.
    destruct (i_own _ _ _ _ I _ _ _ _ H) as (d' & R' & TB). exists d'. split; [exact R'|].
    assert (PAR : (l' = s2_sl (rd_ctx d') /\ t' < num_root_rtts (rd_ctx d') /\ b = g_rtt (rd_ctx d') + t' * 4096) \/
             ((s2_sl (rd_ctx d') < l')%Z /\ t' < ipan (rd_ctx d') (l' - 1) /\
              exists b0, own gh b0 = Some (rd', (l' - 1)%Z, t' / 512) /\ upd (ent gh) a (upd (ent gh a) i e') b0 (t' mod 512) = ETable b)).
    { destruct (t_parent _ _ _ _ _ _ _ TB) as [H1|(H1 & H2 & b0 & H3 & H4)]; [left; exact H1|right].
      split; [exact H1|]. split; [exact H2|]. exists b0. split; [exact H3|].
      destruct (N.eq_dec b0 a) as [->|nb]; [rewrite upd_same|rewrite upd_other by assumption; exact H4].
      destruct (N.eq_dec (t' mod 512) i) as [Ei|ni]; [|rewrite upd_other by assumption; exact H4].
      exfalso. rewrite Ei in H4. unfold e in T. rewrite H4 in T. discriminate. }
    destruct (N.eq_dec b a) as [->|nb].
    + assert (Eq : (rd', l', t') = (rd, l, t)) by congruence. injection Eq as -> -> ->.
      assert (d' = d) as -> by (eapply is_rd_inj; eassumption). fold x in PAR |- *.
      rewrite Ga. constructor; cbn [g_state g_ref g_mem].
      * reflexivity.
      * apply TO.
      * exists f'. split; [reflexivity|]. cbn [ent set_ent]. rewrite upd_same. exact W.
      * cbn [ent set_ent]. rewrite upd_same. rewrite (t_ref _ _ _ _ _ _ _ TO).
        pose proof (cnt_upd (ent gh a) i e' Hi) as Q. fold e in Q.
        assert (counted e = counted e') by (destruct e, e'; cbn in T, T', A |- *; congruence). rewrite H0 in Q. lia.
      * intros j Hj. cbn [ent set_ent]. rewrite upd_same. destruct (N.eq_dec j i) as [->|nj].
        -- rewrite upd_same. exact EO.
        -- rewrite upd_other by assumption. apply (t_entries _ _ _ _ _ _ _ TO j Hj).
      * exact PAR.
    + rewrite F by assumption. destruct TB. constructor; try assumption;
        cbn [ent set_ent] in *; rewrite upd_other by assumption; assumption.
Qed.

(** A page gets a data granule *)
Lemma inv_entry_assign : forall pa fd,
  l = 3%Z -> asg e = None -> is_table_e e = false -> asg e' = Some pa -> valid_entry (enable_lpa2 x) 3 e' ->
  n < parn x 3 -> g_state (G pa) = DELEGATED ->
  G' a = mkG RTT (g_ref (G a) + 1) (CW f') -> G' pa = mkG DATA 0 (CW fd) ->
  (forall z, z <> a -> z <> pa -> G' z = G z) ->
  Inv c (set_dmap (set_ent gh a (upd (ent gh a) i e')) pa (Some (rd, n))) G' V.
Proof.
  intros pa fd -> A T A' Ve Hn Sp Ga Gp F. pose proof (inv_own _ _ _ _ I _ _ _ _ _ O R) as TO. fold x in TO.
  assert (Sa : g_state (G a) = RTT) by apply TO.
  assert (nap : pa <> a) by congruence.
  assert (Dn : dmap gh pa = None) by (eapply dmap_none; [eassumption|congruence]).
  assert (T' : is_table_e e' = false) by (destruct e'; try discriminate; reflexivity).
  assert (EO : entry_ok (set_dmap (set_ent gh a (upd (ent gh a) i e')) pa (Some (rd, n))) x rd 3 n e').
  { split; [exact Ve|]. assert (K : n < parn x 3 /\ forall p, p / pg 3 = n -> upd (dmap gh) pa (Some (rd, n)) (pa + p mod pg 3 * 4096) = Some (rd, p)).
    { split; [exact Hn|]. intros p Hp. rewrite pg_3 in *. rewrite N.div_1_r in Hp. rewrite N.mod_1_r, N.mul_0_l, N.add_0_r, upd_same. congruence. }
    destruct e'; try discriminate; injection A' as ->; exact K. }
  apply (rtt_frame_inv c gh _ G G' V I); try reflexivity.
  - intro z. destruct (N.eq_dec z a) as [->|nz]; [right; rewrite Sa, Ga; unfold rttish; auto|].
    destruct (N.eq_dec z pa) as [->|nz']; [right; rewrite Sp, Gp; unfold rttish; auto|left; apply F; assumption].
  - intros z H. destruct (N.eq_dec z a) as [->|nz]; [rewrite Ga in H; discriminate|].
    destruct (N.eq_dec z pa) as [->|nz']; [rewrite Gp in H; discriminate|]. rewrite F in * by assumption. apply (i_del _ _ _ _ I z H).
  - intros z H. destruct (N.eq_dec z a) as [->|nz]; [rewrite Ga in H; discriminate|].
    destruct (N.eq_dec z pa) as [->|nz'].
    + rewrite Gp. cbn. split; [reflexivity|]. split; [eauto|]. rewrite upd_same. discriminate.
    + rewrite F in * by assumption. cbn. rewrite upd_other by assumption. apply (i_data _ _ _ _ I z H).
  - intros z rd' p H. cbn [dmap set_dmap] in H. destruct (N.eq_dec z pa) as [->|nz].
    + rewrite upd_same in H. injection H as <- <-. split; [rewrite Gp; reflexivity|].
      exists 3%Z, a, pa. rewrite pg_3, N.div_1_r, N.mod_1_r, n_div, n_mod. cbn [own ent set_dmap set_ent].
      rewrite !upd_same. split; [exact O|]. split; [exact A'|lia].
    + rewrite upd_other in H by assumption.
      destruct (i_dmap _ _ _ _ I _ _ _ H) as (H1 & l' & b & pa' & H2 & H3 & H4).
      split; [rewrite F by congruence; exact H1|].
      exists l', b, pa'. split; [exact H2|]. split; [|exact H4].
      cbn [ent set_dmap set_ent]. destruct (N.eq_dec b a) as [->|nb]; [rewrite upd_same|rewrite upd_other by assumption; exact H3].
      destruct (N.eq_dec ((p / pg l') mod 512) i) as [Ei|ni].
      * rewrite Ei in H3. unfold e in A. congruence.
      * rewrite upd_other by assumption. exact H3.
  - intros b d' k H1 H2. apply (i_root _ _ _ _ I _ _ _ H1 H2).
  - intros z H. destruct (N.eq_dec z a) as [->|nz]; [cbn; congruence|].
    destruct (N.eq_dec z pa) as [->|nz']; [rewrite Gp in H; discriminate|].
    rewrite F in H by assumption. apply (i_rtt _ _ _ _ I z H).
  - intros b rd' l' t' H. change (own gh b = Some (rd', l', t')) in H.
    destruct (i_own _ _ _ _ I _ _ _ _ H) as (d' & R' & TB). exists d'. split; [exact R'|].
    assert (MONO : forall l2 n2 e2, entry_ok gh (rd_ctx d') rd' l2 n2 e2 ->
       entry_ok (set_dmap (set_ent gh a (upd (ent gh a) i e')) pa (Some (rd, n))) (rd_ctx d') rd' l2 n2 e2).
    { intros l2 n2 e2. apply entry_ok_mono; [auto|]. intros g k Hk _. cbn. rewrite upd_other; [exact Hk|congruence]. }
    assert (PAR : (l' = s2_sl (rd_ctx d') /\ t' < num_root_rtts (rd_ctx d') /\ b = g_rtt (rd_ctx d') + t' * 4096) \/
             ((s2_sl (rd_ctx d') < l')%Z /\ t' < ipan (rd_ctx d') (l' - 1) /\
              exists b0, own gh b0 = Some (rd', (l' - 1)%Z, t' / 512) /\ upd (ent gh) a (upd (ent gh a) i e') b0 (t' mod 512) = ETable b)).
    { destruct (t_parent _ _ _ _ _ _ _ TB) as [H1|(H1 & H2 & b0 & H3 & H4)]; [left; exact H1|right].
      split; [exact H1|]. split; [exact H2|]. exists b0. split; [exact H3|].
      destruct (N.eq_dec b0 a) as [->|nb]; [rewrite upd_same|rewrite upd_other by assumption; exact H4].
      destruct (N.eq_dec (t' mod 512) i) as [Ei|ni]; [|rewrite upd_other by assumption; exact H4].
      exfalso. rewrite Ei in H4. unfold e in T. rewrite H4 in T. discriminate. }
    destruct (N.eq_dec b a) as [->|nb].
    + assert (Eq : (rd', l', t') = (rd, 3%Z, t)) by congruence. injection Eq as -> -> ->.
      assert (d' = d) as -> by (eapply is_rd_inj; eassumption). fold x in PAR, MONO |- *.
      rewrite Ga. constructor; cbn [g_state g_ref g_mem].
      * reflexivity.
      * apply TO.
      * exists f'. split; [reflexivity|]. cbn [ent set_ent set_dmap]. rewrite upd_same. exact W.
      * cbn [ent set_ent set_dmap]. rewrite upd_same. rewrite (t_ref _ _ _ _ _ _ _ TO).
        pose proof (cnt_upd (ent gh a) i e' Hi) as Q. fold e in Q.
        assert (counted e = false) by (destruct e; cbn in T, A |- *; congruence).
        assert (counted e' = true) by (destruct e'; cbn in A' |- *; congruence). rewrite H0, H1 in Q. cbn in Q. lia.
      * intros j Hj. cbn [ent set_ent set_dmap]. rewrite upd_same. destruct (N.eq_dec j i) as [->|nj].
        -- rewrite upd_same. exact EO.
        -- rewrite upd_other by assumption. apply MONO, (t_entries _ _ _ _ _ _ _ TO j Hj).
      * exact PAR.
    + rewrite F by (try assumption; pose proof (t_state _ _ _ _ _ _ _ TB); congruence).
      destruct TB. constructor; try assumption; try exact PAR;
        cbn [ent set_ent set_dmap] in *; rewrite ?upd_other by assumption; try assumption.
      intros j Hj. apply MONO. auto.
Qed.

(** A page loses its data granule *)
Lemma inv_entry_release : forall pa,
  l = 3%Z -> asg e = Some pa -> asg e' = None -> is_table_e e' = false -> entry_ok gh x rd 3 n e' ->
  G' a = mkG RTT (g_ref (G a) - 1) (CW f') -> G' pa = mkG DELEGATED 0 czero ->
  (forall z, z <> a -> z <> pa -> G' z = G z) ->
  Inv c (set_dmap (set_ent gh a (upd (ent gh a) i e')) pa None) G' V.
Proof.
  intros pa -> A A' T' EO Ga Gp F. pose proof (inv_own _ _ _ _ I _ _ _ _ _ O R) as TO. fold x in TO.
  assert (Sa : g_state (G a) = RTT) by apply TO.
  pose proof (t_entries _ _ _ _ _ _ _ TO i Hi) as EOe. fold n e in EOe.
  assert (T : is_table_e e = false) by (destruct e; try discriminate; reflexivity).
  assert (Dp : dmap gh pa = Some (rd, n)).
  { destruct EOe as [_ K]. assert (K' : forall p, p / pg 3 = n -> dmap gh (pa + p mod pg 3 * 4096) = Some (rd, p)).
    { destruct e; try discriminate; injection A as ->; apply K. }
    specialize (K' n). rewrite pg_3, N.div_1_r, N.mod_1_r, N.mul_0_l, N.add_0_r in K'. apply K'. reflexivity. }
  destruct (i_dmap _ _ _ _ I _ _ _ Dp) as (Sp & _).
  assert (nap : pa <> a) by congruence.
  (* no other entry maps the granule *)
  assert (UN : forall b rd' l' t' j pa' p, own gh b = Some (rd', l', t') -> j < 512 ->
     asg (ent gh b j) = Some pa' -> p / pg l' = 512 * t' + j -> pa = pa' + p mod pg l' * 4096 -> b = a /\ j = i).
  { intros b rd' l' t' j pa' p Ob Hj Aj Hp Epa. destruct (i_own _ _ _ _ I _ _ _ _ Ob) as (d' & R' & TB).
    pose proof (t_entries _ _ _ _ _ _ _ TB j Hj) as [_ K].
    assert (D2 : dmap gh pa = Some (rd', p)).
    { rewrite Epa. destruct (ent gh b j); try discriminate; injection Aj as ->; apply K; exact Hp. }
    rewrite Dp in D2. injection D2 as <- <-.
    assert (Dv : (512 * t' + j) / 512 = t') by lia. assert (Md : (512 * t' + j) mod 512 = j) by lia.
    assert (L1 : Leaf gh rd n 3 a e).
    { unfold Leaf. rewrite pg_3, N.div_1_r, n_div, n_mod. auto. }
    assert (L2 : Leaf gh rd n l' b (ent gh b j)).
    { unfold Leaf. rewrite Hp, Dv, Md. split; [exact Ob|]. split; [reflexivity|].
      destruct (ent gh b j); try discriminate; reflexivity. }
    destruct (leaf_unique _ _ _ _ I _ _ _ _ _ _ _ _ L1 L2) as (E1 & E2 & _). subst b l'.
    split; [reflexivity|]. rewrite pg_3, N.div_1_r in Hp.
    assert (Et : t' = t) by congruence. unfold n in Hp. lia. }
  apply (rtt_frame_inv c gh _ G G' V I); try reflexivity.
  - intro z. destruct (N.eq_dec z a) as [->|nz]; [right; rewrite Sa, Ga; unfold rttish; auto|].
    destruct (N.eq_dec z pa) as [->|nz']; [right; rewrite Sp, Gp; unfold rttish; auto|left; apply F; assumption].
  - intros z H. destruct (N.eq_dec z a) as [->|nz]; [rewrite Ga in H; discriminate|].
    destruct (N.eq_dec z pa) as [->|nz']; [exact Gp|]. rewrite F in * by assumption. apply (i_del _ _ _ _ I z H).
  - intros z H. destruct (N.eq_dec z a) as [->|nz]; [rewrite Ga in H; discriminate|].
    destruct (N.eq_dec z pa) as [->|nz']; [rewrite Gp in H; discriminate|].
    rewrite F in * by assumption. cbn. rewrite upd_other by assumption. apply (i_data _ _ _ _ I z H).
  - intros z rd' p H. cbn [dmap set_dmap] in H. destruct (N.eq_dec z pa) as [->|nz]; [rewrite upd_same in H; discriminate|].
    rewrite upd_other in H by assumption.
    destruct (i_dmap _ _ _ _ I _ _ _ H) as (H1 & l' & b & pa' & H2 & H3 & H4).
    split; [rewrite F by congruence; exact H1|].
    exists l', b, pa'. split; [exact H2|]. split; [|exact H4].
    cbn [ent set_dmap set_ent]. destruct (N.eq_dec b a) as [->|nb]; [rewrite upd_same|rewrite upd_other by assumption; exact H3].
    destruct (N.eq_dec ((p / pg l') mod 512) i) as [Ei|ni].
    + exfalso. rewrite Ei in H3. fold e in H3. rewrite A in H3. injection H3 as <-.
      assert (l' = 3%Z) by congruence. subst l'. rewrite pg_3, N.mod_1_r in H4. apply nz. lia.
    + rewrite upd_other by assumption. exact H3.
  - intros b d' k H1 H2. apply (i_root _ _ _ _ I _ _ _ H1 H2).
  - intros z H. destruct (N.eq_dec z a) as [->|nz]; [cbn; congruence|].
    destruct (N.eq_dec z pa) as [->|nz']; [rewrite Gp in H; discriminate|].
    rewrite F in H by assumption. apply (i_rtt _ _ _ _ I z H).
  - intros b rd' l' t' H. change (own gh b = Some (rd', l', t')) in H.
    destruct (i_own _ _ _ _ I _ _ _ _ H) as (d' & R' & TB). exists d'. split; [exact R'|].
    assert (MONO : forall j, j < 512 -> (b = a -> j <> i) ->
       entry_ok (set_dmap (set_ent gh a (upd (ent gh a) i e')) pa None) (rd_ctx d') rd' l' (512 * t' + j) (ent gh b j)).
    { intros j Hj Hne. eapply entry_ok_mono; [| |apply (t_entries _ _ _ _ _ _ _ TB j Hj)]; [auto|].
      intros g k Hk (pa' & Aj & p & Hp & Eg). cbn. rewrite upd_other; [exact Hk|].
      intros ->. destruct (UN _ _ _ _ _ _ _ H Hj Aj Hp Eg) as (E1 & E2). exact (Hne E1 E2). }
    assert (PAR : (l' = s2_sl (rd_ctx d') /\ t' < num_root_rtts (rd_ctx d') /\ b = g_rtt (rd_ctx d') + t' * 4096) \/
             ((s2_sl (rd_ctx d') < l')%Z /\ t' < ipan (rd_ctx d') (l' - 1) /\
              exists b0, own gh b0 = Some (rd', (l' - 1)%Z, t' / 512) /\ upd (ent gh) a (upd (ent gh a) i e') b0 (t' mod 512) = ETable b)).
    { destruct (t_parent _ _ _ _ _ _ _ TB) as [H1|(H1 & H2 & b0 & H3 & H4)]; [left; exact H1|right].
      split; [exact H1|]. split; [exact H2|]. exists b0. split; [exact H3|].
      destruct (N.eq_dec b0 a) as [->|nb]; [rewrite upd_same|rewrite upd_other by assumption; exact H4].
      destruct (N.eq_dec (t' mod 512) i) as [Ei|ni]; [|rewrite upd_other by assumption; exact H4].
      exfalso. rewrite Ei in H4. unfold e in T. rewrite H4 in T. discriminate. }
    destruct (N.eq_dec b a) as [->|nb].
    + assert (Eq : (rd', l', t') = (rd, 3%Z, t)) by congruence. injection Eq as -> -> ->.
      assert (d' = d) as -> by (eapply is_rd_inj; eassumption). fold x in PAR, MONO |- *.
      rewrite Ga. constructor; cbn [g_state g_ref g_mem].
      * reflexivity.
      * apply TO.
      * exists f'. split; [reflexivity|]. cbn [ent set_ent set_dmap]. rewrite upd_same. exact W.
      * cbn [ent set_ent set_dmap]. rewrite upd_same. rewrite (t_ref _ _ _ _ _ _ _ TO).
        pose proof (cnt_upd (ent gh a) i e' Hi) as Q. fold e in Q.
        assert (counted e = true) by (destruct e; cbn in T, A |- *; congruence).
        assert (counted e' = false) by (destruct e'; cbn in A', T' |- *; congruence). rewrite H0, H1 in Q. cbn in Q. lia.
      * intros j Hj. cbn [ent set_ent set_dmap]. rewrite upd_same. destruct (N.eq_dec j i) as [->|nj].
        -- rewrite upd_same. fold n. eapply entry_ok_mono; [| |exact EO]; [auto|].
           intros g k Hk (pa' & Aj & _). congruence.
        -- rewrite upd_other by assumption. apply MONO; auto.
      * exact PAR.
    + rewrite F by (try assumption; pose proof (t_state _ _ _ _ _ _ _ TB); congruence).
      destruct TB. constructor; try assumption; try exact PAR;
        cbn [ent set_ent set_dmap] in *; rewrite ?upd_other by assumption; try assumption.
      intros j Hj. apply MONO; [exact Hj|]. intro; contradiction.
Qed.
End Entry.

(* ------------------------------------------------------------------ *)
(** * Adding and removing a table *)

Section Attach.
Variables (c : cfg) (gh : ghost) (G G' : N -> granule) (V : N -> bool).
Hypothesis I : Inv c gh G V.
Variables (a rd t i b : N) (l : Z) (d : rdesc) (f' : N -> N).
Hypothesis O : own gh a = Some (rd, l, t).
Hypothesis R : is_rd G rd d.
Hypothesis Hi : i < 512.
Hypothesis Hl : (l < 3)%Z.
Let x := rd_ctx d.
Let n := 512 * t + i.
Let e := ent gh a i.

Lemma inv_attach : forall ch fb,
  n < ipan x l -> g_state (G b) = DELEGATED -> pa_ok (enable_lpa2 x) 3 b -> is_table_e e = false ->
  (forall j, j < 512 -> is_table_e (ch j) = false /\ entry_ok gh x rd (l + 1) (512 * n + j) (ch j) /\
     asg (ch j) = match asg e with Some pa => Some (pa + j * ms (l + 1)) | None => None end) ->
  words_ok (enable_lpa2 x) l f' (upd (ent gh a) i (ETable b)) ->
  words_ok (enable_lpa2 x) (l + 1) fb ch ->
  G' a = mkG RTT (g_ref (G a) + 1 - N.b2n (counted e)) (CW f') ->
  G' b = mkG RTT (cnt ch) (CW fb) -> (forall z, z <> a -> z <> b -> G' z = G z) ->
  Inv c (set_own (set_ent (set_ent gh a (upd (ent gh a) i (ETable b))) b ch) b (Some (rd, (l + 1)%Z, n))) G' V.
Proof.
  intros ch fb Hn Sb Pb T CH W WB Ga Gb F. pose proof (inv_own _ _ _ _ I _ _ _ _ _ O R) as TO. fold x in TO.
  assert (Sa : g_state (G a) = RTT) by apply TO.
  assert (nab : b <> a) by congruence.
  assert (Ob : own gh b = None) by (eapply own_none; [eassumption|congruence]).
  pose proof (t_level_ok _ _ _ _ _ _ _ TO) as LO.
  set (gh' := set_own _ _ _).
  assert (OWN : forall z, own gh' z = upd (own gh) b (Some (rd, (l + 1)%Z, n)) z) by reflexivity.
  assert (MONO : forall x2 rd2 l2 n2 e2, entry_ok gh x2 rd2 l2 n2 e2 -> entry_ok gh' x2 rd2 l2 n2 e2).
  { intros x2 rd2 l2 n2 e2. apply entry_ok_mono; [|auto]. intros b2 k Hk _. rewrite OWN, upd_other; [exact Hk|congruence]. }
  assert (EA : ent gh' a = upd (ent gh a) i (ETable b)) by (unfold gh'; cbn [ent set_own set_ent]; rewrite upd_other, upd_same by congruence; reflexivity).
  assert (EB : ent gh' b = ch) by (unfold gh'; cbn [ent set_own set_ent]; apply upd_same).
  assert (EZ : forall z, z <> a -> z <> b -> ent gh' z = ent gh z) by (intros; unfold gh'; cbn [ent set_own set_ent]; rewrite !upd_other by assumption; reflexivity).
  assert (ND : n / 512 = t) by (unfold n; lia). assert (NM : n mod 512 = i) by (unfold n; lia).
  assert (NB : forall z k, own gh z = Some k -> z <> b) by congruence.
  apply (rtt_frame_inv c gh gh' G G' V I); try reflexivity.
  - intro z. destruct (N.eq_dec z a) as [->|nz]; [right; rewrite Sa, Ga; unfold rttish; auto|].
    destruct (N.eq_dec z b) as [->|nz']; [right; rewrite Sb, Gb; unfold rttish; auto|left; apply F; assumption].
  - intros z H. destruct (N.eq_dec z a) as [->|nz]; [rewrite Ga in H; discriminate|].
    destruct (N.eq_dec z b) as [->|nz']; [rewrite Gb in H; discriminate|]. rewrite F in * by assumption. apply (i_del _ _ _ _ I z H).
  - intros z H. destruct (N.eq_dec z a) as [->|nz]; [rewrite Ga in H; discriminate|].
    destruct (N.eq_dec z b) as [->|nz']; [rewrite Gb in H; discriminate|]. rewrite F in * by assumption. apply (i_data _ _ _ _ I z H).
  - intros z rd' p H. destruct (i_dmap _ _ _ _ I _ _ _ H) as (H1 & l' & b' & pa & H2 & H3 & H4).
    split; [rewrite F by congruence; exact H1|]. pose proof (NB _ _ H2) as Nb.
    destruct (N.eq_dec b' a) as [->|na].
    + assert (Eq : (rd', l', p / pg l' / 512) = (rd, l, t)) by congruence. injection Eq as -> -> Ep.
      destruct (N.eq_dec ((p / pg l) mod 512) i) as [Ei|ni].
      * rewrite Ei in H3. fold e in H3.
        assert (Pn : p / pg l = n) by (unfold n; pose proof (div512 (p / pg l)); lia).
        assert (P1 : p / pg (l + 1) / 512 = n) by (rewrite <- pnum_succ by assumption; exact Pn).
        destruct (CH ((p / pg (l + 1)) mod 512) (mod512_lt _)) as (_ & _ & A). rewrite H3 in A.
        exists (l + 1)%Z, b. eexists. rewrite OWN, upd_same, EB, P1. split; [reflexivity|]. split; [exact A|].
        rewrite H4, (pmod_succ p l) by assumption. rewrite (ms_pg (l + 1)) by lia. lia.
      * exists l, a, pa. rewrite OWN, upd_other, EA, upd_other by congruence. split; [congruence|auto].
    + exists l', b', pa. rewrite OWN, upd_other, EZ by assumption. auto.
  - intros b' d' k H1 H2. pose proof (i_root _ _ _ _ I _ _ _ H1 H2) as K. rewrite OWN, upd_other; [exact K|congruence].
  - intros z H. rewrite OWN. destruct (N.eq_dec z b) as [->|nz]; [rewrite upd_same; discriminate|]. rewrite upd_other by assumption.
    destruct (N.eq_dec z a) as [->|nz']; [congruence|]. rewrite F in H by assumption. apply (i_rtt _ _ _ _ I z H).
  - intros z rd' l' t' H. rewrite OWN in H. destruct (N.eq_dec z b) as [->|nz].
    + rewrite upd_same in H. injection H as <- <- <-. exists d. split; [exact R|]. fold x. rewrite Gb.
      constructor; cbn [g_state g_ref g_mem]; rewrite ?EB.
      * reflexivity.
      * lia.
      * exists fb. auto.
      * reflexivity.
      * intros j Hj. apply MONO, CH, Hj.
      * right. split; [lia|]. replace (l + 1 - 1)%Z with l by lia. split; [exact Hn|].
        exists a. rewrite OWN, upd_other, EA, ND, NM, upd_same by congruence. split; [exact O|reflexivity].
    + rewrite upd_other in H by assumption.
      destruct (i_own _ _ _ _ I _ _ _ _ H) as (d' & R' & TB). exists d'. split; [exact R'|].
      assert (PAR : (l' = s2_sl (rd_ctx d') /\ t' < num_root_rtts (rd_ctx d') /\ z = g_rtt (rd_ctx d') + t' * 4096) \/
             ((s2_sl (rd_ctx d') < l')%Z /\ t' < ipan (rd_ctx d') (l' - 1) /\
              exists b0, own gh' b0 = Some (rd', (l' - 1)%Z, t' / 512) /\ ent gh' b0 (t' mod 512) = ETable z)).
      { destruct (t_parent _ _ _ _ _ _ _ TB) as [H1|(H1 & H2 & b0 & H3 & H4)]; [left; exact H1|right].
        split; [exact H1|]. split; [exact H2|]. exists b0. rewrite OWN, upd_other by (eapply NB; eassumption). split; [exact H3|].
        destruct (N.eq_dec b0 a) as [->|nb]; [rewrite EA|rewrite EZ; [exact H4|assumption|eapply NB; eassumption]].
        destruct (N.eq_dec (t' mod 512) i) as [Ei|ni]; [|rewrite upd_other by assumption; exact H4].
        exfalso. rewrite Ei in H4. unfold e in T. rewrite H4 in T. discriminate. }
      destruct (N.eq_dec z a) as [->|na].
      * assert (Eq : (rd', l', t') = (rd, l, t)) by congruence. injection Eq as -> -> ->.
        assert (d' = d) as -> by (eapply is_rd_inj; eassumption). fold x in PAR |- *.
        rewrite Ga. constructor; cbn [g_state g_ref g_mem]; rewrite ?EA.
        -- reflexivity.
        -- apply TO.
        -- exists f'. auto.
        -- rewrite (t_ref _ _ _ _ _ _ _ TO). pose proof (cnt_upd (ent gh a) i (ETable b) Hi) as Q. fold e in Q.
           cbn [counted] in Q. change (N.b2n true) with 1 in Q. lia.
        -- intros j Hj. destruct (N.eq_dec j i) as [->|nj].
           ++ rewrite upd_same. fold n. split; [cbn; split; [lia|exact Pb]|]. split; [exact Hn|].
              rewrite OWN, upd_same. reflexivity.
           ++ rewrite upd_other by assumption. apply MONO, (t_entries _ _ _ _ _ _ _ TO j Hj).
        -- exact PAR.
      * rewrite F by assumption. destruct TB. constructor; try assumption; rewrite ?EZ by assumption; try assumption.
        intros j Hj. apply MONO. auto.
Qed.

Lemma inv_detach : forall e',
  e = ETable b -> is_table_e e' = false -> entry_ok gh x rd l n e' ->
  (forall j, j < 512 -> is_table_e (ent gh b j) = false /\
     asg (ent gh b j) = match asg e' with Some pa => Some (pa + j * ms (l + 1)) | None => None end) ->
  words_ok (enable_lpa2 x) l f' (upd (ent gh a) i e') ->
  G' a = mkG RTT (g_ref (G a) - 1 + N.b2n (counted e')) (CW f') ->
  G' b = mkG DELEGATED 0 czero -> (forall z, z <> a -> z <> b -> G' z = G z) ->
  Inv c (set_own (set_ent gh a (upd (ent gh a) i e')) b None) G' V.
Proof.
  intros e' Ee T' EO CH W Ga Gb F. pose proof (inv_own _ _ _ _ I _ _ _ _ _ O R) as TO. fold x in TO.
  assert (Sa : g_state (G a) = RTT) by apply TO.
  destruct (own_child _ _ _ _ I _ _ _ _ _ _ O Hi Ee) as (Ob & _). fold n in Ob.
  assert (Sb : g_state (G b) = RTT) by (eapply own_rtt; eassumption).
  assert (nab : b <> a). { intros ->. rewrite O in Ob. injection Ob as Hx _. lia. }
  pose proof (t_level_ok _ _ _ _ _ _ _ TO) as LO.
  set (gh' := set_own _ _ _).
  assert (OWN : forall z, own gh' z = upd (own gh) b None z) by reflexivity.
  assert (ND : n / 512 = t) by (unfold n; lia). assert (NM : n mod 512 = i) by (unfold n; lia).
  assert (UN : forall z rd2 l2 t2 j, own gh z = Some (rd2, l2, t2) -> j < 512 -> ent gh z j = ETable b -> z = a /\ j = i).
  { intros z rd2 l2 t2 j Oz Hj Ej. destruct (own_child _ _ _ _ I _ _ _ _ _ _ Oz Hj Ej) as (Ob' & _).
    rewrite Ob in Ob'. apply some3_inj in Ob'. destruct Ob' as (<- & E1 & E2). unfold n in E2.
    assert (t2 = t) as -> by lia. assert (j = i) by lia. assert (l2 = l) as -> by lia.
    split; [|assumption]. eapply own_unique; eassumption. }
  assert (MONO : forall z rd2 l2 t2 x2 n2 j, own gh z = Some (rd2, l2, t2) -> j < 512 -> (z = a -> j <> i) ->
     entry_ok gh x2 rd2 l2 n2 (ent gh z j) -> entry_ok gh' x2 rd2 l2 n2 (ent gh z j)).
  { intros z rd2 l2 t2 x2 n2 j Oz Hj Hne. apply entry_ok_mono; [|auto]. intros b2 k Hk Ej.
    rewrite OWN, upd_other; [exact Hk|]. intros ->. destruct (UN _ _ _ _ _ Oz Hj Ej) as (E1 & E2). exact (Hne E1 E2). }
  assert (EA : ent gh' a = upd (ent gh a) i e') by (unfold gh'; cbn [ent set_own set_ent]; apply upd_same).
  assert (EZ : forall z, z <> a -> ent gh' z = ent gh z) by (intros; unfold gh'; cbn [ent set_own set_ent]; rewrite !upd_other by assumption; reflexivity).
  apply (rtt_frame_inv c gh gh' G G' V I); try reflexivity.
  - intro z. destruct (N.eq_dec z a) as [->|nz]; [right; rewrite Sa, Ga; unfold rttish; auto|].
    destruct (N.eq_dec z b) as [->|nz']; [right; rewrite Sb, Gb; unfold rttish; auto|left; apply F; assumption].
  - intros z H. destruct (N.eq_dec z a) as [->|nz]; [rewrite Ga in H; discriminate|].
    destruct (N.eq_dec z b) as [->|nz']; [exact Gb|]. rewrite F in * by assumption. apply (i_del _ _ _ _ I z H).
  - intros z H. destruct (N.eq_dec z a) as [->|nz]; [rewrite Ga in H; discriminate|].
    destruct (N.eq_dec z b) as [->|nz']; [rewrite Gb in H; discriminate|]. rewrite F in * by assumption. apply (i_data _ _ _ _ I z H).
  - intros z rd' p H. destruct (i_dmap _ _ _ _ I _ _ _ H) as (H1 & l' & b' & pa & H2 & H3 & H4).
    split; [rewrite F by congruence; exact H1|].
    destruct (N.eq_dec b' b) as [->|nb].
    + assert (Eq : (rd', l', p / pg l' / 512) = (rd, (l + 1)%Z, n)) by congruence. injection Eq as -> -> Ep.
      destruct (CH ((p / pg (l + 1)) mod 512) (mod512_lt _)) as (_ & A). rewrite H3 in A.
      destruct (asg e') as [pa'|] eqn:Ae; [|discriminate]. injection A as ->.
      assert (Pn : p / pg l = n) by (rewrite pnum_succ by assumption; exact Ep).
      exists l, a, pa'. rewrite OWN, upd_other, EA, Pn, ND, NM, upd_same by congruence.
      split; [exact O|]. split; [exact Ae|]. rewrite H4, (pmod_succ p l) by assumption.
      rewrite (ms_pg (l + 1)) by lia. lia.
    + exists l', b', pa. rewrite OWN, upd_other by assumption. split; [exact H2|]. split; [|exact H4].
      destruct (N.eq_dec b' a) as [->|na]; [rewrite EA|rewrite EZ by assumption; exact H3].
      destruct (N.eq_dec ((p / pg l') mod 512) i) as [Ei|ni]; [|rewrite upd_other by assumption; exact H3].
      rewrite Ei in H3. fold e in H3. rewrite Ee in H3. discriminate.
  - intros b' d' k H1 H2. pose proof (i_root _ _ _ _ I _ _ _ H1 H2) as K. rewrite OWN, upd_other; [exact K|].
    intro E1. rewrite E1, Ob in K. injection K as <- Lx _. pose proof (is_rd_inj _ _ _ _ R H1) as <-. fold x in Lx. lia.
  - intros z H. rewrite OWN. destruct (N.eq_dec z b) as [->|nz]; [rewrite Gb in H; discriminate|]. rewrite upd_other by assumption.
    destruct (N.eq_dec z a) as [->|nz']; [congruence|]. rewrite F in H by assumption. apply (i_rtt _ _ _ _ I z H).
  - intros z rd' l' t' H. rewrite OWN in H. destruct (N.eq_dec z b) as [->|nz]; [rewrite upd_same in H; discriminate|].
    rewrite upd_other in H by assumption.
    destruct (i_own _ _ _ _ I _ _ _ _ H) as (d' & R' & TB). exists d'. split; [exact R'|].
    assert (PAR : (l' = s2_sl (rd_ctx d') /\ t' < num_root_rtts (rd_ctx d') /\ z = g_rtt (rd_ctx d') + t' * 4096) \/
             ((s2_sl (rd_ctx d') < l')%Z /\ t' < ipan (rd_ctx d') (l' - 1) /\
              exists b0, own gh' b0 = Some (rd', (l' - 1)%Z, t' / 512) /\ ent gh' b0 (t' mod 512) = ETable z)).
    { destruct (t_parent _ _ _ _ _ _ _ TB) as [H1|(H1 & H2 & b0 & H3 & H4)]; [left; exact H1|right].
      split; [exact H1|]. split; [exact H2|]. exists b0.
      assert (nb : b0 <> b).
      { intros ->. destruct (CH (t' mod 512) (mod512_lt _)) as (K & _). rewrite H4 in K. discriminate. }
      rewrite OWN, upd_other by assumption. split; [exact H3|].
      destruct (N.eq_dec b0 a) as [->|na]; [rewrite EA|rewrite EZ by assumption; exact H4].
      destruct (N.eq_dec (t' mod 512) i) as [Ei|ni]; [|rewrite upd_other by assumption; exact H4].
      exfalso. rewrite Ei in H4. fold e in H4. congruence. }
    destruct (N.eq_dec z a) as [->|na].
    + assert (Eq : (rd', l', t') = (rd, l, t)) by congruence. injection Eq as -> -> ->.
      assert (d' = d) as -> by (eapply is_rd_inj; eassumption). fold x in PAR |- *.
      rewrite Ga. constructor; cbn [g_state g_ref g_mem]; rewrite ?EA.
      * reflexivity.
      * apply TO.
      * exists f'. auto.
      * rewrite (t_ref _ _ _ _ _ _ _ TO). pose proof (cnt_upd (ent gh a) i e' Hi) as Q. fold e in Q. rewrite Ee in Q.
        pose proof (cnt_pos (ent gh a) i Hi) as CP. fold e in CP. rewrite Ee in CP. specialize (CP eq_refl).
        cbn [counted] in Q. change (N.b2n true) with 1 in Q. lia.
      * intros j Hj. destruct (N.eq_dec j i) as [->|nj].
        -- rewrite upd_same. fold n. eapply entry_ok_mono; [| |exact EO]; [|auto].
           intros b2 k Hk E2. rewrite E2 in T'. discriminate.
        -- rewrite upd_other by assumption. eapply MONO; [exact O|exact Hj|auto|apply (t_entries _ _ _ _ _ _ _ TO j Hj)].
      * exact PAR.
    + rewrite F by assumption. destruct TB. constructor; try assumption; rewrite ?EZ by assumption; try assumption.
      intros j Hj. eapply MONO; [exact H|exact Hj|contradiction|]. auto.
Qed.
End Attach.
