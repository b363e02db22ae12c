(** What single steps do to the pages of realms *)
From Coq Require Import NArith ZArith List Bool Lia ZifyBool ZifyN.
From Verif Require Import Bits S2tte S2tteFacts State Granule Wp RecFields Measure RmiRtt RmiRealm Psci RmiRec Gic Esr Rsi RecRun
  Arch ArchFacts Mmu Machine Spec SpecStep SpecExit Inv InvTree MmuFacts InvStep InvStep2 InvStep3 Effects Frames CmdLib CmdData CmdRipas
  CmdRec CmdRealm CmdRsi2 CmdRun CmdRun2 CmdAll MInv MStep View StepView Own ExitFacts Step Step2.
Import ListNotations.
Local Open Scope N_scope.

Lemma div_range : forall s b x, 0 < s -> b mod s = 0 -> (x / s =? b / s) = in_range b (b + s) x.
Proof.
  intros s b x Hs Hb. assert (E : b = s * (b / s)) by (apply N.div_exact in Hb; lia). unfold in_range.
  pose proof (N.div_mod x s ltac:(lia)) as D. pose proof (N.mod_lt x s ltac:(lia)) as L.
  set (q := b / s) in *. set (k := x / s) in *. clearbody q k. subst b.
  destruct (N.eqb_spec k q) as [->|ne]; [nia|]. destruct (N.lt_ge_cases k q); nia.
Qed.
Lemma div_range_m : forall s b x n, 0 < s -> b mod s = 0 -> (b / s <=? x / s) && (x / s <? b / s + n) = in_range b (b + n * s) x.
Proof.
  intros s b x n Hs Hb. assert (E : b = s * (b / s)) by (apply N.div_exact in Hb; lia). unfold in_range.
  pose proof (N.div_mod x s ltac:(lia)) as D. pose proof (N.mod_lt x s ltac:(lia)) as L.
  set (q := b / s) in *. set (k := x / s) in *. clearbody q k. subst b.
  destruct (N.leb_spec q k), (N.ltb_spec k (q + n)); nia.
Qed.

Lemma hit_block : forall rd a l map ipa, (-1 <= l <= 3)%Z -> map mod ms l = 0 -> hit rd a l (map / ms l) (ipa / 4096) = (rd =? a) && block map l ipa.
Proof.
  intros rd a l map ipa Hl Hm. unfold hit, block. rewrite arch_lsb_eq by exact Hl. fold (ms l). rewrite <- div_range by (apply ms_pos || exact Hm).
  rewrite <- num_page by lia. rewrite N.eqb_sym. reflexivity.
Qed.

Lemma nodestroy : forall c h m o m' rp a d', next c h m o m' rp -> realm m' a d' -> forall r, ~ done o rp (KRealmDestroy a) r.
Proof.
  intros c h m o m' rp a d' H [R _] r D. destruct (moves_states _ _ _ _ _ _ _ _ _ H (mv_realm_destroy m o rp a r D)) as [_ E]. congruence.
Qed.

Lemma cmd_no_destroy : forall c gh G V k r gh' labs inv a, cmd_eff c gh G V k r gh' labs inv -> (x0 r = RMI_SUCCESS -> k <> KRealmDestroy a) -> no_destroy a labs.
Proof.
  intros c gh G V k r gh' labs inv a K N d0 IN. unfold cmd_eff in K. cbv zeta in K.
  assert (CH : forall rd l u es n i m, ~ In (LRealmDestroy a d0) (chg rd l u es n i m)).
  { intros. unfold chg. rewrite in_map_iff. intros (z & E & _). discriminate E. }
  destruct k;
    repeat match goal with
    | H : _ /\ _ |- _ => destruct H
    | H : exists _, _ |- _ => destruct H
    | H : _ \/ _ |- _ => destruct H
    end; subst labs; try contradiction; try (rewrite in_app_iff in IN; destruct IN as [IN|IN]; [eapply CH; exact IN|]);
    cbn [In] in IN;
    repeat match goal with IN : _ \/ _ |- _ => destruct IN as [IN|IN] end; try discriminate IN; try contradiction.
  injection IN as -> _. apply N; auto.
Qed.

(** A step that leaves the ghost state leaves all pages *)
Lemma page_ghost : forall c gh m m' a d d' ipa, MInv c gh m -> MInv c gh m' -> realm m a d -> realm m' a d' -> rd_ctx d' = rd_ctx d ->
  page_at (m_gr m') (rd_ctx d) ipa = page_at (m_gr m) (rd_ctx d) ipa /\ translate (m_gr m') (rd_ctx d) ipa = translate (m_gr m) (rd_ctx d) ipa.
Proof.
  intros c gh m m' a d d' ipa M M' R R' E. destruct (N.lt_ge_cases ipa (2 ^ ipa_bits (rd_ctx d))) as [Hi|Hi].
  - destruct (leaf_of _ _ _ _ (mv_inv _ _ _ M) _ _ _ R Hi) as (l & b & e & LF).
    destruct (view_leaf _ _ _ _ (mv_inv _ _ _ M) _ _ _ _ _ _ R Hi LF) as [-> ->].
    pose proof (view_leaf _ _ _ _ (mv_inv _ _ _ M') a d' ipa l b e R') as K. rewrite E in K. destruct (K Hi LF) as [-> ->]. auto.
  - unfold page_at, translate. destruct (N.ltb_spec ipa (2 ^ ipa_bits (rd_ctx d))); [lia|]. auto.
Qed.

Lemma ctx_step : forall c h m o m' rp, next c h m o m' rp -> forall a d d', realm m a d -> realm m' a d' -> rd_ctx d' = rd_ctx d.
Proof.
  intros c h m o m' rp H a d d' R R'. destruct (rd_step _ _ _ _ _ _ H a d d' R R') as [->|K]; [reflexivity|].
  destruct K; try reflexivity. unfold created_rec_rd. destruct (N.testbit (rp_flags p) 0); reflexivity.
Qed.

Lemma leaf_lvl : forall c gh G V rd d p l b e, Inv c gh G V -> is_rd G rd d -> Leaf gh rd p l b e -> (-1 <= l <= 3)%Z.
Proof. intros c gh G V rd d p l b e I R LF. destruct (leaf_level _ _ _ _ I _ _ _ _ _ _ R LF) as (H1 & H2 & _). lia. Qed.

(** What the pages of an entry look like when one bit of the entry changes *)
Lemma at_3 : forall pa ipa, at_page 3 pa ipa = pa.
Proof. intros. unfold at_page. rewrite pg_3, N.mod_1_r. lia. Qed.

Lemma view_init : forall l e ipa, init_e e = true -> view_e l (init_u e) ipa = with_ripas (view_e l e ipa) RAM.
Proof. intros l e ipa H. destruct e; try discriminate H; reflexivity. Qed.
Lemma view_set : forall l q ch e ipa, set_e q ch e = true ->
  view_e l (set_u q e) ipa = match q with 0 => with_ripas (view_e l e ipa) EMPTY | 1 => with_ripas (view_e l e ipa) RAM | _ => view_e l e ipa end.
Proof.
  intros l q ch e ipa H. unfold set_u. change RIPAS_RAM with 1 in *. change RIPAS_EMPTY with 0 in *.
  destruct (N.eqb_spec q 1) as [->|n1]; [destruct e; try discriminate H; reflexivity|].
  destruct (N.eqb_spec q 0) as [->|n0]; [destruct e; try discriminate H; reflexivity|].
  destruct q as [|[?|?|]]; congruence.
Qed.

Lemma at_sub : forall l pa ipa, (l < 3)%Z -> at_page (l + 1) (pa + (ipa / 4096 / pg (l + 1)) mod 512 * ms (l + 1)) ipa = at_page l pa ipa.
Proof.
  intros l pa ipa Hl. unfold at_page. rewrite (pmod_succ (ipa / 4096) l Hl), ms_pg by lia.
  set (x := ipa / 4096 / pg (l + 1) mod 512). set (y := (ipa / 4096) mod pg (l + 1)). nia.
Qed.
Lemma sub_view : forall l e ipa, (l < 3)%Z -> is_table_e e = false -> view_e (l + 1) (sub_e l e (ipa / 4096)) ipa = view_e l e ipa.
Proof.
  intros l e ipa Hl T. unfold sub_e. destruct e; try discriminate T; cbn [unfold_e view_e]; rewrite ?at_sub by exact Hl; reflexivity.
Qed.
Lemma at_block : forall l pa map ipa, (-1 <= l <= 3)%Z -> map mod ms l = 0 -> block map l ipa = true -> at_page l pa ipa = pa + (ipa - map) / 4096 * 4096.
Proof.
  intros l pa map ipa Hl Hm B. unfold at_page. f_equal. f_equal. unfold block, in_range in B. rewrite arch_lsb_eq in B by exact Hl. fold (ms l) in B.
  apply andb_prop in B. destruct B as [B1 B2]. apply N.leb_le in B1. apply N.ltb_lt in B2.
  rewrite ms_pg in Hm, B2 by lia. pose proof (pg_pos l) as P. set (g := pg l) in *. clearbody g.
  apply N.div_exact in Hm; [|nia]. remember (map / (g * 4096)) as q eqn:Eq. clear Eq. replace (g * 4096) with (4096 * g) in * by lia. subst map.
  assert (E1 : ipa / 4096 = g * q + (ipa - 4096 * g * q) / 4096).
  { replace ipa with (4096 * g * q + (ipa - 4096 * g * q)) at 1 by lia. replace (4096 * g * q) with (g * q * 4096) at 1 by lia.
    rewrite N.div_add_l by discriminate. reflexivity. }
  rewrite E1, N.mul_comm, N.add_comm, N.mod_add by lia. apply N.mod_small. apply N.div_lt_upper_bound; lia.
Qed.

Lemma page_step : forall c h m o m' rp, next c h m o m' rp -> forall a d d', realm m a d -> realm m' a d' ->
  rd_ctx d' = rd_ctx d /\ forall ipa, ipa < 2 ^ ipa_bits (rd_ctx d) ->
    page_at (m_gr m') (rd_ctx d) ipa = page_then m o rp a (rd_ctx d) ipa (page_at (m_gr m) (rd_ctx d) ipa) /\
    forall k r, done o rp k r -> page_before m k r a ipa (page_at (m_gr m) (rd_ctx d) ipa).
Proof.
  intros c h m o m' rp H a d d' R R'. pose proof (ctx_step _ _ _ _ _ _ H a d d' R R') as EC. split; [exact EC|]. intros ipa Hi.
  destruct (next_good _ _ _ _ _ _ H) as (gh & gh' & labs & M & M' & GE & OE).
  assert (NC : (forall p k, o <> OCmd p k) -> gh' = gh).
  { intro N. unfold op_eff in OE. destruct o; try (exfalso; eapply N; reflexivity); apply OE || apply (proj2 OE). }
  destruct o as [p k| | | | | | | |]; try (rewrite NC in * by discriminate; cbn [page_then]; split; [apply (page_ghost _ _ _ _ _ _ _ _ M M' R R' EC)|intros ? ? (? & E & _); discriminate E]).
  clear NC. destruct OE as (_ & r & inv & -> & K & ET & ECP & EA). cbn [page_then].
  pose proof (mv_inv _ _ _ M) as I. pose proof (mv_inv _ _ _ M') as I'.
  assert (ND : no_destroy a labs).
  { eapply cmd_no_destroy; [exact K|]. intros OK ->. eapply (nodestroy _ _ _ _ _ _ _ _ H R' r). exists p. auto. }
  destruct (leaf_of _ _ _ _ I _ _ _ R Hi) as (l & b & e & LF).
  pose proof (leaf_lvl _ _ _ _ _ _ _ _ _ _ I R LF) as HL.
  destruct (view_leaf _ _ _ _ I _ _ _ _ _ _ R Hi LF) as [-> _].
  destruct (leafs_step _ _ _ _ _ _ _ _ GE I _ _ _ _ _ _ R ND LF) as (l' & b' & e' & d2 & LF' & LC & R2 & _ & _).
  pose proof (leaf_lvl _ _ _ _ _ _ _ _ _ _ I' R' LF') as HL'.
  assert (E : page_at (m_gr m') (rd_ctx d) ipa = view_e l' e' ipa).
  { pose proof (view_leaf _ _ _ _ I' a d' ipa l' b' e' R') as X. rewrite EC in X. apply (X Hi LF'). }
  rewrite E. clear E.
  assert (SM : leafchgs [] a (ipa / 4096) (l, e) (l', e') -> view_e l' e' ipa = view_e l e ipa).
  { intro X. injection X as -> ->. reflexivity. }
  destruct (N.eqb_spec (x0 r) RMI_SUCCESS) as [OK|NO].
  2:{ split; [|intros k1 r1 (p1 & _ & E & OK); injection E as <-; contradiction].
      unfold cmd_eff in K. cbv zeta in K. destruct k; try (destruct K as [(_ & (-> & _) & _)|(OK & _)]; [apply SM, LC|contradiction]);
        try (destruct K as ((-> & _) & _); apply SM, LC).
      destruct K as (_ & [(_ & -> & _)|(rc & rt & rc' & rt' & _ & _ & _ & _ & _ & ->)]); [apply SM, LC|].
      cbn in LC. destruct LC as (u1 & -> & u2 & -> & X). apply SM, X. }
  enough (XX : view_e l' e' ipa = page_after m k r a (rd_ctx d) ipa (view_e l e ipa) /\ page_before m k r a ipa (view_e l e ipa)).
  { destruct XX as [X1 X2]. split; [exact X1|]. intros k1 r1 (p1 & E & E1 & _). injection E1 as <-. injection E as _ <-. exact X2. }
  assert (SMT : leafchgs [] a (ipa / 4096) (l, e) (l', e') -> view_e l' e' ipa = view_e l e ipa /\ True) by auto.
  assert (ONE : forall lab, labs = [lab] -> leafchg lab a (ipa / 4096) (l, e) (l', e')).
  { intros lab ->. cbn in LC. destruct LC as (u1 & X & ->). exact X. }
  assert (ENT : forall rd l0 map e0 e1 p' (Q : page -> Prop), (-1 <= l0 <= 3)%Z -> map mod ms l0 = 0 ->
     (if hit rd a l0 (map / ms l0) (ipa / 4096) then (l, e) = (l0, e0) /\ (l', e') = (l0, e1) else (l', e') = (l, e)) ->
     (rd = a -> block map l0 ipa = true -> l = l0 -> e = e0 -> view_e l0 e1 ipa = p' /\ Q (view_e l e ipa)) ->
     view_e l' e' ipa = (if (rd =? a) && block map l0 ipa then p' else view_e l e ipa) /\ ((rd =? a) && block map l0 ipa = true -> Q (view_e l e ipa))).
  { intros rd l0 map e0 e1 p' Q H0 Hm X Y. rewrite hit_block in X by assumption. destruct (_ && _) eqn:B.
    - apply andb_prop in B. destruct B as [B1 B2]. apply N.eqb_eq in B1. destruct X as [X1 X2]. injection X1 as -> ->. injection X2 as -> ->. destruct Y; auto.
    - injection X as -> ->. split; [reflexivity|discriminate]. }
  assert (RNG : forall rd base u (F : page -> page) (Q : page -> Prop) wi n d0, is_rd (m_gr m) rd d0 -> walk_res gh (rd_ctx d0) rd base 3 wi -> base mod ms (w_level wi) = 0 ->
     x1 r = base + N.of_nat n * ms (w_level wi) ->
     leafchgs (chg rd (w_level wi) u (ent gh (w_llt wi)) (base / ms (w_level wi)) (w_index wi) n) a (ipa / 4096) (l, e) (l', e') ->
     (forall k, k < N.of_nat n -> e = ent gh (w_llt wi) (w_index wi + k) -> view_e l (u e) ipa = F (view_e l e ipa) /\ Q (view_e l e ipa)) ->
     view_e l' e' ipa = (if (rd =? a) && in_range base (x1 r) ipa then F (view_e l e ipa) else view_e l e ipa) /\
     ((rd =? a) && in_range base (x1 r) ipa = true -> Q (view_e l e ipa))).
  { intros rd base u F Q wi n d0 R0 W Hb Ho X Y. apply leafchgs_chg in X.
    pose proof (ctx_sl _ (inv_ctx _ _ _ _ I _ _ R0)) as SL. destruct (walk_at _ _ _ _ I _ _ _ _ _ R0 W) as (_ & _ & _ & WL & _).
    rewrite <- num_page in X by lia. rewrite <- andb_assoc, div_range_m in X by (apply ms_pos || exact Hb). rewrite <- Ho, (N.eqb_sym a rd) in X.
    destruct (_ && _) eqn:B; [|injection X as -> ->; split; [reflexivity|discriminate]].
    destruct X as [X1 X2]. injection X1 as -> Ee. injection X2 as -> ->. rewrite <- Ee.
    enough (YY : view_e (w_level wi) (u e) ipa = F (view_e (w_level wi) e ipa) /\ Q (view_e (w_level wi) e ipa)) by (destruct YY; auto).
    apply (Y (ipa / ms (w_level wi) - base / ms (w_level wi))); [|exact Ee].
    apply andb_prop in B. destruct B as [_ B]. rewrite Ho, <- div_range_m in B by (apply ms_pos || exact Hb). apply andb_prop in B.
    destruct B as [B1 B2]. apply N.leb_le in B1. apply N.ltb_lt in B2. clear -B1 B2.
    set (x := ipa / _) in *. set (y := base / _) in *. clearbody x y. lia. }
  unfold cmd_eff in K. cbv zeta in K. destruct k; cbn [page_after page_before];
    try (destruct K as [(NO & _)|(_ & K)]; [contradiction|]).
  - destruct K as ((-> & _) & _). apply SMT, LC.
  - destruct K as ((-> & _) & _). apply SMT, LC.
  - destruct K as ((-> & _) & _). apply SMT, LC.
  - destruct K as (-> & _). apply SMT. apply (ONE _ eq_refl).
  - destruct K as (-> & _). apply SMT. apply (ONE _ eq_refl).
  - (* data create *)
    destruct K as (_ & d0 & e0 & f & R0 & _ & _ & Hm & U & _ & _ & _ & _ & ->). cbn [leafchgs leafchg] in LC. destruct LC as (u1 & -> & u2 & X & Y). subst u2.
    rewrite <- ms_3 in X, Hm. eapply (ENT rd 3%Z _ _ _ _ (fun p => exists q, p = PUnassigned q)); [lia|exact Hm|exact X|]. intros _ _ -> ->. split; [cbn [view_e]; rewrite at_3; reflexivity|]. destruct e0; try discriminate U; eexists; reflexivity.
  - destruct K as (_ & d0 & e0 & R0 & _ & Hm & U & ->). specialize (ONE _ eq_refl). cbn [leafchg] in ONE.
    rewrite <- ms_3 in ONE, Hm. eapply (ENT rd 3%Z _ _ _ _ (fun p => exists q, p = PUnassigned q)); [lia|exact Hm|exact ONE|]. intros _ _ -> ->. destruct e0; try discriminate U; cbn [view_e assign_e]; rewrite at_3; (split; [reflexivity|eexists; reflexivity]).
  - destruct K as (d0 & e0 & wi & R0 & _ & Hm & U & -> & _). specialize (ONE _ eq_refl). cbn [leafchg] in ONE.
    rewrite <- ms_3 in ONE, Hm. eapply (ENT rd 3%Z _ _ _ _ (fun p => exists q, p = PAssigned q (x1 r))); [lia|exact Hm|exact ONE|]. intros _ _ -> ->. destruct e0; try discriminate U; cbn [view_e unassign_e]; injection U as ->; rewrite ?at_3; (split; [reflexivity|eexists; reflexivity]).
  - destruct K as (_ & d0 & _ & _ & ->). apply SMT. apply (ONE _ eq_refl).
  - destruct K as (_ & p0 & _ & _ & _ & _ & _ & _ & _ & _ & ->). apply SMT. apply (ONE _ eq_refl).
  - destruct K as (_ & d0 & _ & _ & _ & ->). apply SMT. apply (ONE _ eq_refl).
  - destruct K as (_ & p0 & d0 & rc & _ & _ & _ & _ & _ & _ & _ & _ & _ & ->). apply SMT. apply (ONE _ eq_refl).
  - destruct K as (_ & rc & _ & _ & ->). apply SMT. apply (ONE _ eq_refl).
  - (* rtt create *)
    destruct K as (d0 & e0 & R0 & Hl & _ & Hm & -> & _). specialize (ONE _ eq_refl). cbn [leafchg] in ONE.
    destruct (hit _ _ _ _ _) eqn:Hh; [|injection ONE as -> ->; auto]. destruct ONE as [X1 X2]. injection X1 as -> ->. injection X2 as -> ->. split; [|exact Logic.I].
    apply sub_view; [lia|]. destruct LF as (_ & _ & T). exact T.
  - (* rtt destroy *)
    destruct K as (d0 & e0 & wi & R0 & Hl & Ha & Hm & -> & _). specialize (ONE _ eq_refl). cbn [leafchg] in ONE.
    pose proof (ctx_sl _ (inv_ctx _ _ _ _ I _ _ R0)) as SL.
    rewrite hit_block in ONE by (exact Hm || lia). split; [|exact Logic.I]. destruct (_ && _) eqn:B; [|injection ONE as -> ->; reflexivity].
    destruct ONE as [_ X]. injection X as -> ->. apply andb_prop in B. destruct B as [B1 B2]. apply N.eqb_eq in B1. subst rd.
    assert (d0 = d) as -> by (destruct R, R0; congruence).
    inversion GE as [|? ? ? ? gh1 G1 V1 ? ? ? ? X1 X2]; subst. inversion X1; subst.
    match goal with X : is_rd (m_gr m) a ?z |- _ => assert (z = d) as -> by (destruct R, X; congruence) end.
    match goal with |- context [512 * ?t + ?i] => replace (512 * t + i) with (map / ms (sgn64 ulevel - 1)) by (symmetry; assumption) end.
    assert (E0 : map / ms (sgn64 ulevel - 1) = ipa / 4096 / pg (sgn64 ulevel - 1)).
    { rewrite <- num_page by lia. unfold block in B2. rewrite arch_lsb_eq in B2 by lia. fold (ms (sgn64 ulevel - 1)) in B2.
      rewrite <- div_range in B2 by (apply ms_pos || exact Hm). apply N.eqb_eq in B2. congruence. }
    pose proof (leaf_par _ _ _ _ I a d ipa (sgn64 ulevel - 1) _ R ltac:(lia) E0) as LP. unfold protected in LP.
    destruct (N.ltb_spec (map / ms (sgn64 ulevel - 1)) (parn (rd_ctx d) (sgn64 ulevel - 1))), (N.ltb_spec ipa (2 ^ (ipa_bits (rd_ctx d) - 1))); try reflexivity; exfalso; lia.
  - (* map *)
    destruct K as (_ & d0 & R0 & Hl & _ & _ & Hm & _ & ->). specialize (ONE _ eq_refl). cbn [leafchg] in ONE.
    eapply (ENT rd (sgn64 ulevel) _ _ _ _ (fun p => p = PNsUnassigned)); [lia|exact Hm|exact ONE|]. intros -> B -> ->. split; [|reflexivity]. assert (d0 = d) as -> by (destruct R, R0; congruence).
    cbn [view_e]. rewrite (at_block (sgn64 ulevel) _ map ipa ltac:(lia) Hm B), arch_lsb_eq, arch_oa_eq by lia.
    rewrite !(bits_land_mask (N.land _ _)), !(bits_land_mask s2tte) by lia. rewrite <- !N.land_assoc. reflexivity.
  - destruct K as (-> & _). apply SMT, LC.
  - (* unmap *)
    destruct K as (d0 & at_ & pa & wi & R0 & Hl & _ & _ & Hm & -> & _). specialize (ONE _ eq_refl). cbn [leafchg] in ONE.
    eapply (ENT rd (sgn64 ulevel) _ _ _ _ (fun p => exists pa mt sh, p = PNsAssigned pa mt sh)); [lia|exact Hm|exact ONE|]. intros _ _ -> ->. split; [reflexivity|]. do 3 eexists. reflexivity.
  - (* psci *) destruct K as (_ & [(_ & -> & _)|(rc & rt & rc' & rt' & _ & _ & _ & _ & _ & ->)]); [apply SMT, LC|].
    cbn in LC. destruct LC as (u1 & -> & u2 & -> & X). apply SMT, X.
  - (* fold *)
    destruct K as (d0 & e0 & R0 & Hl & _ & Hm & -> & _). specialize (ONE _ eq_refl). cbn [leafchg] in ONE.
    destruct (hit _ _ _ _ _) eqn:Hh; [|injection ONE as -> ->; auto]. destruct ONE as [X1 X2]. injection X1 as -> ->. injection X2 as -> ->. split; [|exact Logic.I].
    symmetry. apply sub_view; [lia|]. destruct LF' as (_ & _ & T). exact T.
  - destruct K as (_ & -> & _). apply SMT, LC.
  - (* init ripas *)
    destruct K as (_ & d0 & wi & n & R0 & _ & _ & _ & _ & _ & W & (Hn & Hb & Ho & _ & _ & ACC & _) & ->).
    apply leafchgs_app in LC. destruct LC as (u1 & LC & Y). cbn in Y. destruct Y as (u2 & -> & Y). subst u1.
    eapply (RNG rd base init_u (fun p => with_ripas p RAM) (fun p => p = PUnassigned EMPTY \/ p = PUnassigned RAM)); try eassumption.
    intros k Hk ->. pose proof (ACC k Hk) as A. split; [apply view_init, A|]. destruct (ent gh (w_llt wi) (w_index wi + k)); try discriminate A; auto.
  - (* set ripas *)
    destruct K as (d0 & rc & wi & n & K). cbv zeta in K. destruct K as (R0 & RC & _ & _ & _ & _ & _ & W & (Hn & Hb & Ho & _ & _ & ACC & _) & -> & _).
    apply leafchgs_app in LC. destruct LC as (u1 & LC & Y). cbn in Y. destruct Y as (u2 & -> & Y). subst u1.
    assert (RQ : request m rec = Some (r_set_ripas rc)) by (unfold request; destruct RC as [_ ->]; reflexivity). cbn [page_before]; rewrite RQ.
    eapply (RNG rd base (set_u (sr_ripas (r_set_ripas rc)))
      (fun p => match sr_ripas (r_set_ripas rc) with 0 => with_ripas p EMPTY | 1 => with_ripas p RAM | _ => p end)
      (fun p => exists q, page_ripas p = Some q /\ (q = DESTROYED -> forall rq, Some (r_set_ripas rc) = Some rq -> sr_change_destroyed rq = 1 \/ 1 < sr_ripas rq))); try eassumption.
    intros k Hk ->. pose proof (ACC k Hk) as A. split; [eapply view_set, A|].
    destruct (ent gh (w_llt wi) (w_index wi + k)); try discriminate A; cbn [view_e page_ripas]; eexists; (split; [reflexivity|]); try discriminate;
      intros _ rq E; injection E as <-; cbn [set_e] in A; change CHANGE_DESTROYED with 1 in A; change RIPAS_RAM with 1 in A; change RIPAS_EMPTY with 0 in A; lia.
Qed.

Lemma attr_pa : forall ds pa, pa_ok ds 3 pa -> attr_fields ds (pa_to_s2tte pa ds) = 0.
Proof.
  intros ds pa P. pose proof P as [Ha Hlt]. change (lvl_lsb 3) with 12 in Ha. unfold attr_fields.
  apply N.bits_inj. intro n. rewrite N.land_spec, N.bits_0. destruct (N.lt_ge_cases n 50).
  - destruct ds.
    + replace (2 ^ 64 - 2 ^ 50 + 2 ^ 12 - 2 ^ 10 + 2 ^ 8 - 2 ^ 2 + 0) with (N.lor (BIT_MASK 63 50) (N.lor (BIT_MASK 11 10) (BIT_MASK 7 2))) by reflexivity.
      rewrite !N.lor_spec, !testbit_bitmask. rewrite testbit_pa_to_s2tte by assumption.
      destruct (N.lt_ge_cases n 12) as [L|L]; [|assert (n <=? 11 = false) as -> by lia; assert (n <=? 7 = false) as -> by lia; assert (50 <=? n = false) as -> by lia;
        rewrite !andb_false_r; cbn; now rewrite ?andb_false_r].
      bit_cases; rewrite ?(testbit_low_aligned pa 12) by assumption; reflexivity.
    + unfold pa_to_s2tte. destruct (N.lt_ge_cases n 12) as [L|L]; [rewrite (testbit_low_aligned pa 12) by assumption; reflexivity|].
      replace (2 ^ 64 - 2 ^ 50 + 2 ^ 12 - 2 ^ 10 + 2 ^ 8 - 2 ^ 2 + (2 ^ 10 - 2 ^ 8)) with (N.lor (BIT_MASK 63 50) (BIT_MASK 11 2)) by reflexivity.
      rewrite !N.lor_spec, !testbit_bitmask. assert (n <=? 11 = false) as -> by lia. assert (50 <=? n = false) as -> by lia.
      rewrite andb_false_r. apply andb_false_r.
  - rewrite (testbit_false_lt _ 50 n); [reflexivity|apply pa_to_s2tte_lt; assumption|assumption].
Qed.
Lemma attr_enc : forall ds l e, valid_entry ds l e -> attr_fields ds (enc ds l e) = attr_fields ds (enc_const ds l e).
Proof.
  intros ds l e V. rewrite enc_norm by exact V. unfold attr_fields at 1. rewrite N.land_lor_distr_l. fold (attr_fields ds (pa_to_s2tte (epa e) ds)).
  rewrite attr_pa by (eapply valid_epa; exact V). apply N.lor_0_l.
Qed.
(** A translation is determined by the page *)
Lemma outcome_view : forall ds l e l' e' ipa, (-1 <= l <= 3)%Z -> (-1 <= l' <= 3)%Z -> valid_entry ds l e -> valid_entry ds l' e' -> view_e l e ipa = view_e l' e' ipa ->
  outcome ds (leaf_x ds l e ipa) = outcome ds (leaf_x ds l' e' ipa).
Proof.
  intros ds l e l' e' ipa Hl Hl' V V' E.
  assert (A : forall l0 pa, (-1 <= l0 <= 3)%Z -> pa + ipa mod ms l0 = at_page l0 pa ipa + ipa mod 4096).
  { intros l0 pa H0. rewrite ms_page by lia. unfold at_page. lia. }
  destruct e, e'; try discriminate E; try reflexivity; cbn [view_e] in E; cbn [leaf_x outcome]; rewrite !A, !attr_enc by assumption.
  - injection E as ->. do 2 f_equal. cbn [enc_const]. destruct ds, (l =? 3)%Z, (l' =? 3)%Z; reflexivity.
  - injection E as -> E1 E2. do 2 f_equal. cbn [enc_const]. unfold attr_fields. rewrite !N.land_lor_distr_l.
    destruct V as (_ & _ & B & _), V' as (_ & _ & B' & _).
    assert (EA : attrs = attrs0).
    { apply N.bits_inj. intro n. rewrite <- B, <- B', !N.land_spec.
      change S2TTE_NS_ATTR_MASK with (N.lor (BIT_MASK 4 2) (BIT_MASK 7 6)). rewrite N.lor_spec, !testbit_bitmask.
      pose proof (f_equal (fun z => N.testbit z (n - 2)) E1) as K1. pose proof (f_equal (fun z => N.testbit z (n - 6)) E2) as K2.
      cbv beta in K1, K2. rewrite !testbit_bits in K1, K2.
      destruct ((2 <=? n) && (n <=? 4)) eqn:C1.
      - replace (n - 2 + 2) with n in K1 by lia.  replace (n - 2 <? 4 - 2 + 1) with true in K1 by lia. cbn [andb orb] in *. rewrite !andb_true_r. exact K1.
      - destruct ((6 <=? n) && (n <=? 7)) eqn:C2; [|rewrite !andb_false_r; reflexivity].
        replace (n - 6 + 6) with n in K2 by lia. replace (n - 6 <? 7 - 6 + 1) with true in K2 by lia. cbn [andb orb] in *. rewrite !andb_true_r. exact K2. }
    subst attrs0. f_equal. unfold ns_const. destruct ds, (l =? 3)%Z, (l' =? 3)%Z; reflexivity.
Qed.

Lemma same_page_outcome : forall c h m m' a d d' ipa, reachable c h m -> reachable c h m' -> realm m a d -> realm m' a d' -> rd_ctx d' = rd_ctx d ->
  page_at (m_gr m') (rd_ctx d) ipa = page_at (m_gr m) (rd_ctx d) ipa ->
  outcome (enable_lpa2 (rd_ctx d)) (translate (m_gr m') (rd_ctx d) ipa) = outcome (enable_lpa2 (rd_ctx d)) (translate (m_gr m) (rd_ctx d) ipa).
Proof.
  intros c h m m' a d d' ipa RC RC' R R' EC E. destruct (N.lt_ge_cases ipa (2 ^ ipa_bits (rd_ctx d))) as [Hi|Hi].
  2:{ unfold translate. destruct (N.ltb_spec ipa (2 ^ ipa_bits (rd_ctx d))); [lia|]. reflexivity. }
  destruct (reach_minv _ _ _ RC) as (gh & M). destruct (reach_minv _ _ _ RC') as (gh' & M').
  destruct (leaf_of _ _ _ _ (mv_inv _ _ _ M) _ _ _ R Hi) as (l & b & e & LF).
  assert (Hi' : ipa < 2 ^ ipa_bits (rd_ctx d')) by (rewrite EC; exact Hi).
  destruct (leaf_of _ _ _ _ (mv_inv _ _ _ M') _ _ _ R' Hi') as (l' & b' & e' & LF').
  destruct (view_leaf _ _ _ _ (mv_inv _ _ _ M) _ _ _ _ _ _ R Hi LF) as [V1 T1].
  destruct (view_leaf _ _ _ _ (mv_inv _ _ _ M') _ _ _ _ _ _ R' Hi' LF') as [V2 T2]. rewrite EC in V2, T2. rewrite T1, T2.
  destruct (leaf_level _ _ _ _ (mv_inv _ _ _ M) _ _ _ _ _ _ R LF) as (L1 & L2 & (VE & _)).
  destruct (leaf_level _ _ _ _ (mv_inv _ _ _ M') _ _ _ _ _ _ R' LF') as (L1' & L2' & (VE' & _)). rewrite EC in *.
  apply outcome_view; try assumption; try lia. congruence.
Qed.

Lemma fold_unfold : forall c h m o m' rp k r, next c h m o m' rp -> done o rp k r -> match k with KRttCreate _ _ _ _ | KRttFold _ _ _ => True | _ => False end ->
  forall a d, realm m a d -> exists d', realm m' a d' /\ rd_ctx d' = rd_ctx d /\ forall ipa,
    page_at (m_gr m') (rd_ctx d) ipa = page_at (m_gr m) (rd_ctx d) ipa /\
    outcome (enable_lpa2 (rd_ctx d)) (translate (m_gr m') (rd_ctx d) ipa) = outcome (enable_lpa2 (rd_ctx d)) (translate (m_gr m) (rd_ctx d) ipa).
Proof.
  intros c h m o m' rp k r H D KK a d R. pose proof H as (RC & _). pose proof (next_reachable _ _ _ _ _ _ H) as RC'.
  destruct (cmd_done_eff _ _ _ _ _ _ _ _ H D) as (gh & gh' & labs & inv & M & M' & GE & K & OK & _).
  destruct (rds_stay _ _ _ _ _ _ _ _ GE (mv_inv _ _ _ M) a d R) as (d' & R' & _ & EC).
  { eapply cmd_no_destroy; [exact K|]. intros _ ->. contradiction. }
  exists d'. split; [exact R'|]. split; [exact EC|]. intro ipa.
  assert (E : page_at (m_gr m') (rd_ctx d) ipa = page_at (m_gr m) (rd_ctx d) ipa).
  { destruct (N.lt_ge_cases ipa (2 ^ ipa_bits (rd_ctx d))) as [Hi|Hi].
    2:{ unfold page_at. destruct (N.ltb_spec ipa (2 ^ ipa_bits (rd_ctx d))); [lia|]. reflexivity. }
    destruct (page_step _ _ _ _ _ _ H _ _ _ R R') as (_ & P). destruct (P _ Hi) as [-> _]. destruct D as (p & -> & -> & _). cbn [page_then].
    destruct (x0 r =? RMI_SUCCESS); [|reflexivity]. destruct k; try contradiction; reflexivity. }
  split; [exact E|]. eapply same_page_outcome; eassumption.
Qed.

