(** Cached translations agree with the tables *)
From Coq Require Import NArith ZArith List Bool Lia ZifyBool ZifyN.
From Verif Require Import Bits S2tte S2tteFacts State Granule Wp RecFields Measure RmiRtt RmiRealm Psci RmiRec Gic Esr Rsi RecRun
  Arch ArchFacts Mmu Machine Spec SpecStep SpecTlb Inv InvTree MmuFacts InvStep InvStep2 InvStep3 Effects Frames CmdLib CmdData CmdRipas
  CmdRtt CmdFold CmdRtt2 CmdNs CmdRec CmdRealm CmdRsi2 CmdRun CmdRun2 CmdAll MInv MStep View StepView Own Step Step2 Step3.
Import ListNotations.
Local Open Scope N_scope.

(** ** Invalidation *)
Lemma invals_in : forall inv T t, In t (invals inv T) -> In t T /\ forall v a s, In (v, a, s) inv -> tlb_hit v a s t = false.
Proof.
  unfold invals. induction inv as [|[[v a] s] inv IH]; intros T t H; cbn [fold_left] in H.
  - split; [exact H|]. intros v a s [].
  - apply IH in H. destruct H as [H1 H2]. cbn [fst snd] in H1. unfold tlb_inval in H1. apply filter_In in H1. destruct H1 as [H1 H3].
    split; [exact H1|]. intros v0 a0 s0 [E|E]; [|apply H2, E]. injection E as <- <- <-. now apply negb_true_iff.
Qed.

Lemma ms_dvd : forall l k, (k <= l <= 3)%Z -> exists q, ms k = q * ms l /\ 0 < q.
Proof.
  intros l k H. remember (Z.to_nat (l - k)) as n eqn:En. revert k H En. induction n as [|n IH]; intros k H En.
  - exists 1. assert (k = l) by lia. subst. lia.
  - destruct (IH (k + 1)%Z ltac:(lia) ltac:(lia)) as (q & E & P). exists (q * 512). rewrite ms_succ, E by lia. lia.
Qed.

(** Entry [t] covers the block of level [l] with [ipa] when it is of an earlier level *)
Lemma covers : forall tl l tb a ipa, (-1 <= tl <= l)%Z -> (l <= 3)%Z -> tb mod ms tl = 0 -> block tb tl ipa = true -> a mod ms l = 0 -> a / ms l = ipa / ms l ->
  tb <= a < tb + ms tl.
Proof.
  intros tl l tb a ipa H1 H2 Ht B Ha E. unfold block, in_range in B. rewrite arch_lsb_eq in B by lia. fold (ms tl) in B.
  apply andb_prop in B. destruct B as [B1 B2]. apply N.leb_le in B1. apply N.ltb_lt in B2.
  destruct (ms_dvd l tl ltac:(lia)) as (q & Eq & Pq). pose proof (ms_pos l) as P. rewrite Eq in *.
  set (s := ms l) in *. clearbody s. clear - Ht B1 B2 Ha E P Pq.
  pose proof (N.div_mod a s ltac:(lia)) as DA. rewrite Ha, N.add_0_r in DA. pose proof (N.div_mod ipa s ltac:(lia)) as DI. pose proof (N.mod_lt ipa s ltac:(lia)) as DL.
  rewrite E in DA. set (k := ipa / s) in *. clearbody k.
  pose proof (N.div_mod tb (q * s) ltac:(nia)) as DT. rewrite Ht, N.add_0_r in DT. set (u := tb / (q * s)) in *. clearbody u.
  set (r := ipa mod s) in *. clearbody r. subst a. subst tb. subst ipa.
  replace (q * s * u) with (s * (q * u)) in * by lia. replace (q * s) with (s * q) in * by lia. set (x := q * u) in *. clearbody x.
  assert (x <= k) by (clear - B1 DL; nia). assert (k < x + q) by (clear - B2 DL; nia).
  pose proof (N.mul_le_mono_l x k s). pose proof (N.mul_lt_mono_pos_l s k (x + q) ltac:(lia)). lia.
Qed.

Lemma hits : forall t v tl l a ipa, t_vmid t = v -> t_level t = tl -> (-1 <= tl <= l)%Z -> (l <= 3)%Z -> t_ipa t mod ms tl = 0 -> block (t_ipa t) tl ipa = true ->
  a mod ms l = 0 -> a / ms l = ipa / ms l -> tlb_hit v a 4096 t = true.
Proof.
  intros t v tl l a ipa Hv Hl H1 H2 Ht B Ha E. pose proof (covers tl l (t_ipa t) a ipa H1 H2 Ht B Ha E) as [C1 C2].
  unfold tlb_hit. rewrite Hv, Hl, N.eqb_refl. change (s2tte_map_size tl) with (ms tl). lia.
Qed.
Lemma hits_range : forall t v tl a s ipa, t_vmid t = v -> t_level t = tl -> (-1 <= tl <= 3)%Z -> block (t_ipa t) tl ipa = true ->
  a <= ipa -> ipa < a + s -> tlb_hit v a s t = true.
Proof.
  intros t v tl a s ipa Hv Hl H1 B C1 C2. unfold block, in_range in B. rewrite arch_lsb_eq in B by lia. fold (ms tl) in B.
  unfold tlb_hit. rewrite Hv, Hl, N.eqb_refl. change (s2tte_map_size tl) with (ms tl). lia.
Qed.

Lemma set_inv_in : forall v q size es n i base k, k < N.of_nat n -> set_t q (es (i + k)) = true -> In (v, base + k * size, 4096) (set_inv v q size es n i base).
Proof.
  intros v q size es n. induction n as [|n IH]; intros i base k Hk S; [lia|]. cbn [set_inv]. apply in_or_app.
  destruct (N.eq_dec k 0) as [->|Nk].
  - left. rewrite N.add_0_r in S. rewrite S. left. f_equal. f_equal. lia.
  - right. replace (base + k * size) with (base + size + (k - 1) * size) by nia. apply IH; [lia|]. replace (i + 1 + (k - 1)) with (i + k) by lia. exact S.
Qed.

(** ** One command *)
Definition allowed (all : bool) (m : mstate) (o : op) : Prop := if all then gentle m o else no_large_fold m o.
Definition live_e (all : bool) (e : entry) : Prop := match e with EAsRam _ => True | EAsNs _ _ => all = true | _ => False end.

Lemma div_of_block : forall l map ipa, (-1 <= l <= 3)%Z -> map mod ms l = 0 -> block map l ipa = true -> map / ms l = ipa / ms l.
Proof.
  intros l map ipa Hl Hm B. unfold block in B. rewrite arch_lsb_eq in B by exact Hl. fold (ms l) in B. rewrite <- div_range in B by (apply ms_pos || exact Hm).
  apply N.eqb_eq in B. congruence.
Qed.

Section Cmd.
Variables (c : cfg) (gh : ghost) (m : mstate).
Let G := m_gr m.
Hypothesis I : Inv c gh (m_gr m) (m_vmids m).

Lemma leaf_kept : forall all p k r gh' labs inv a d t tl l b e l' e' ipa,
  cmd_eff c gh (m_gr m) (m_vmids m) k r gh' labs inv -> allowed all m (OCmd p k) -> realm m a d -> t_vmid t = vmid (rd_ctx d) -> t_level t = tl ->
  (-1 <= tl <= l)%Z -> t_ipa t mod ms tl = 0 -> block (t_ipa t) tl ipa = true -> ipa < 2 ^ ipa_bits (rd_ctx d) ->
  (forall v a s, In (v, a, s) inv -> tlb_hit v a s t = false) ->
  Leaf gh a (ipa / 4096) l b e -> live_e all e -> leafchgs labs a (ipa / 4096) (l, e) (l', e') -> (l', e') = (l, e).
Proof.
  intros all p k r gh' labs inv a d t tl l b e l' e' ipa K OK R Hv Htl HL Ht B Hi NH LF LV LC.
  destruct (leaf_level _ _ _ _ I _ _ _ _ _ _ R LF) as (L1 & L2 & VE & EO).
  assert (TX : translate (m_gr m) (rd_ctx d) ipa = leaf_x (enable_lpa2 (rd_ctx d)) l e ipa) by (apply (view_leaf _ _ _ _ I _ _ _ _ _ _ R Hi LF)).
  assert (SM : leafchgs [] a (ipa / 4096) (l, e) (l', e') -> (l', e') = (l, e)) by (intro X; cbn in X; congruence).
  assert (ONE : forall lab, labs = [lab] -> leafchg lab a (ipa / 4096) (l, e) (l', e')).
  { intros lab ->. cbn in LC. destruct LC as (u1 & X & ->). exact X. }
  assert (SAMED : forall d0, is_rd (m_gr m) a d0 -> d0 = d) by (intros d0 R0; destruct R, R0; congruence).
  (* invalidation of the first page of the entry *)
  assert (PG : forall map, (map / ms l = ipa / ms l)%N -> map mod ms l = 0 -> ~ In (vmid (rd_ctx d), map, 4096) inv).
  { intros map E1 E2 IN. pose proof (NH _ _ _ IN) as X. rewrite (hits t _ tl l map ipa Hv Htl HL ltac:(lia) Ht B E2 E1) in X. discriminate X. }
  assert (RG : forall map s, block map 2 ipa = true -> s = ms 2 -> ~ In (vmid (rd_ctx d), map, s) inv).
  { intros map s B2 -> IN. pose proof (NH _ _ _ IN) as X. unfold block, in_range in B2. rewrite (arch_lsb_eq 2) in B2 by lia. fold (ms 2) in B2.
    rewrite (hits_range t _ tl map (ms 2) ipa Hv Htl ltac:(lia) B) in X; [discriminate X| |]; clear - B2; lia. }
  unfold cmd_eff in K. cbv zeta in K. destruct k;
    try (destruct K as [(_ & (-> & _) & _)|(_ & K)]; [apply SM, LC|]).
  - destruct K as ((-> & _) & _). apply SM, LC.
  - destruct K as ((-> & _) & _). apply SM, LC.
  - destruct K as ((-> & _) & _). apply SM, LC.
  - destruct K as (-> & _). apply (ONE _ eq_refl).
  - destruct K as (-> & _). apply (ONE _ eq_refl).
  - (* data create *)
    destruct K as (_ & d0 & e0 & f & R0 & _ & _ & Hm & U & _ & _ & _ & _ & ->). cbn [leafchgs leafchg] in LC. destruct LC as (u1 & -> & u2 & X & Y). subst u2.
    destruct (hit _ _ _ _ _); [|exact X]. destruct X as [X _]. injection X as -> ->. exfalso. destruct e0; try discriminate U; exact LV.
  - destruct K as (_ & d0 & e0 & R0 & _ & Hm & U & ->). specialize (ONE _ eq_refl). cbn [leafchg] in ONE.
    destruct (hit _ _ _ _ _); [|exact ONE]. destruct ONE as [X _]. injection X as -> ->. exfalso. destruct e0; try discriminate U; exact LV.
  - (* data destroy *)
    destruct K as (d0 & e0 & wi & R0 & _ & Hm & U & -> & _ & _ & _ & Ei). specialize (ONE _ eq_refl). cbn [leafchg] in ONE.
    rewrite <- ms_3 in ONE, Hm. rewrite hit_block in ONE by (exact Hm || lia). destruct (_ && _) eqn:HB; [|exact ONE].
    apply andb_prop in HB. destruct HB as [E1 E2]. apply N.eqb_eq in E1. subst rd. rewrite (SAMED _ R0) in *.
    destruct ONE as [X _]. injection X as -> ->. exfalso. apply div_of_block in E2; [|lia|exact Hm].
    destruct e0; try discriminate U; try exact LV. apply (PG map E2 Hm). rewrite Ei. left. reflexivity.
  - destruct K as (_ & d0 & _ & _ & ->). apply (ONE _ eq_refl).
  - destruct K as (_ & p0 & _ & _ & _ & _ & _ & _ & _ & _ & ->). apply (ONE _ eq_refl).
  - destruct K as (_ & d0 & _ & _ & _ & ->). apply (ONE _ eq_refl).
  - destruct K as (_ & p0 & d0 & rc & _ & _ & _ & _ & _ & _ & _ & _ & _ & ->). apply (ONE _ eq_refl).
  - destruct K as (_ & rc & _ & _ & ->). apply (ONE _ eq_refl).
  - (* rtt create *)
    destruct K as (d0 & e0 & R0 & Hl & _ & Hm & -> & Ei). specialize (ONE _ eq_refl). cbn [leafchg] in ONE.
    pose proof (ctx_sl _ (inv_ctx _ _ _ _ I _ _ R0)) as SL.
    rewrite hit_block in ONE by (exact Hm || lia). destruct (_ && _) eqn:HB; [|exact ONE].
    apply andb_prop in HB. destruct HB as [E1 E2]. apply N.eqb_eq in E1. subst rd. rewrite (SAMED _ R0) in *.
    destruct ONE as [X _]. injection X as -> ->. exfalso. apply div_of_block in E2; [|lia|exact Hm].
    apply (PG map E2 Hm). rewrite Ei. destruct e0; try contradiction; left; reflexivity.
  - (* rtt destroy *)
    destruct K as (d0 & e0 & wi & R0 & Hl & Ha & Hm & -> & _ & _ & _ & Ei). specialize (ONE _ eq_refl). cbn [leafchg] in ONE.
    pose proof (ctx_sl _ (inv_ctx _ _ _ _ I _ _ R0)) as SL.
    rewrite hit_block in ONE by (exact Hm || lia). destruct (_ && _) eqn:HB; [|exact ONE].
    apply andb_prop in HB. destruct HB as [E1 E2]. apply N.eqb_eq in E1. subst rd. rewrite (SAMED _ R0) in *. exfalso.
    destruct ONE as [X _]. cbn [snd] in X. destruct e; try contradiction; try discriminate X. cbn [live_e] in LV. subst all. cbn [allowed gentle] in OK.
    destruct OK as [E3|OK].
    + rewrite E3 in *. change (3 - 1)%Z with 2%Z in *. apply (RG map _ E2 eq_refl). rewrite Ei. left. f_equal.
      destruct (N.ltb_spec map (2 ^ (ipa_bits (rd_ctx d) - 1))) as [Q|Q]; [|reflexivity]. exfalso.
      apply (num_parn _ (inv_ctx _ _ _ _ I _ _ R) 2) in Q; [|lia]. apply div_of_block in E2; [|lia|exact Hm]. rewrite E2 in Q.
      apply (num_parn _ (inv_ctx _ _ _ _ I _ _ R) 2) in Q; [|lia]. apply (num_parn _ (inv_ctx _ _ _ _ I _ _ R) l) in Q; [|exact L1].
      rewrite num_page in Q by lia. lia.
    + pose proof (OK d ipa R E2) as Y. unfold no_memory in Y. rewrite TX in Y. discriminate Y.
  - (* map *)
    destruct K as (_ & d0 & R0 & Hl & _ & _ & Hm & _ & ->). specialize (ONE _ eq_refl). cbn [leafchg] in ONE.
    destruct (hit _ _ _ _ _); [|exact ONE]. destruct ONE as [X _]. injection X as -> ->. contradiction.
  - destruct K as (-> & _). apply SM, LC.
  - (* unmap *)
    destruct K as (d0 & at_ & pa & wi & R0 & Hl & _ & _ & Hm & -> & _ & _ & _ & Ei). specialize (ONE _ eq_refl). cbn [leafchg] in ONE.
    rewrite hit_block in ONE by (exact Hm || lia). destruct (_ && _) eqn:HB; [|exact ONE].
    apply andb_prop in HB. destruct HB as [E1 E2]. apply N.eqb_eq in E1. subst rd. rewrite (SAMED _ R0) in *.
    destruct ONE as [X _]. injection X as -> ->. exfalso. apply div_of_block in E2; [|lia|exact Hm].
    apply (PG map E2 Hm). rewrite Ei. left. reflexivity.
  - (* psci *) destruct K as (_ & [(_ & -> & _)|(rc & rt & rc' & rt' & _ & _ & _ & _ & _ & ->)]); [apply SM, LC|].
    cbn in LC. destruct LC as (u1 & -> & u2 & -> & X). apply SM, X.
  - (* fold *)
    destruct K as (d0 & e0 & R0 & Hl & _ & Hm & -> & Ei). specialize (ONE _ eq_refl). cbn [leafchg] in ONE.
    pose proof (ctx_sl _ (inv_ctx _ _ _ _ I _ _ R0)) as SL.
    rewrite hit_block in ONE by (exact Hm || lia). destruct (_ && _) eqn:HB; [|exact ONE].
    apply andb_prop in HB. destruct HB as [E1 E2]. apply N.eqb_eq in E1. subst rd. rewrite (SAMED _ R0) in *. exfalso.
    destruct ONE as [X _]. injection X as El Ee.
    assert (HW : hw_valid e0 = true). { rewrite Ee in LV. unfold sub_e in LV. destruct e0; try contradiction; reflexivity. }
    rewrite HW in Ei. assert (E3 : sgn64 ulevel = 3%Z).
    { destruct all; cbn [allowed gentle no_large_fold] in OK; destruct OK as [E3|OK]; try exact E3; exfalso; pose proof (OK d ipa R E2) as Y.
      - unfold no_memory in Y. rewrite TX in Y. destruct e; try contradiction; discriminate Y.
      - unfold no_realm_memory in Y. rewrite TX in Y. destruct e; try contradiction; [|discriminate LV]. eapply Y. reflexivity. }
    rewrite E3 in *. apply (RG map _ E2 eq_refl). rewrite Ei. left. reflexivity.
  - destruct K as (_ & -> & _). apply SM, LC.
  - (* init ripas *)
    destruct K as (_ & d0 & wi & n & R0 & _ & _ & _ & _ & _ & W & (Hn & Hb & Ho & _ & _ & ACC & _) & ->).
    apply leafchgs_app in LC. destruct LC as (u1 & LC & Y). cbn in Y. destruct Y as (u2 & -> & Y). subst u1.
    apply leafchgs_chg in LC. destruct (_ && _) eqn:HB; [|exact LC]. exfalso. destruct LC as [X _]. injection X as -> Ee.
    assert (A : init_e e = true) by (rewrite Ee; apply ACC; clear - HB; lia). destruct e; try discriminate A; exact LV.
  - (* set ripas *)
    destruct K as (d0 & rc & wi & n & K). cbv zeta in K. destruct K as (R0 & RC & _ & _ & _ & _ & _ & W & (Hn & Hb & Ho & _ & _ & ACC & _) & -> & Ei).
    apply leafchgs_app in LC. destruct LC as (u1 & LC & Y). cbn in Y. destruct Y as (u2 & -> & Y). subst u1.
    apply leafchgs_chg in LC. destruct (_ && _) eqn:HB; [|exact LC]. destruct LC as [X X2]. injection X as -> Ee. injection X2 as -> ->. f_equal. rewrite <- Ee.
    set (k := ipa / 4096 / pg (w_level wi) - base / ms (w_level wi)) in *.
    assert (Hk : k < N.of_nat n) by (unfold k; clear - HB; set (y := base / _) in *; set (z := _ / pg _) in *; clearbody y z; lia).
    pose proof (ACC k Hk) as A. rewrite <- Ee in A. destruct e; try contradiction; try discriminate A.
    destruct (set_t (sr_ripas (r_set_ripas rc)) (EAsRam pa)) eqn:ST.
    2:{ unfold set_t in ST. rewrite andb_true_r in ST. unfold set_u. rewrite ST. destruct (_ =? RIPAS_RAM); reflexivity. }
    exfalso. apply andb_prop in HB. destruct HB as [HB HB2]. apply andb_prop in HB. destruct HB as [E1 HB1].
    apply N.eqb_eq in E1. apply N.leb_le in HB1. subst rd. rewrite (SAMED _ R0) in *.
    apply (PG (base + k * ms (w_level wi))).
    + rewrite N.div_add by (pose proof (ms_pos (w_level wi)); lia). rewrite (num_page ipa) by lia. unfold k. clear - HB1. set (y := base / _) in *. set (z := _ / pg _) in *. clearbody y z. lia.
    + rewrite N.mod_add by (pose proof (ms_pos (w_level wi)); lia). exact Hb.
    + rewrite Ei. apply set_inv_in; [exact Hk|]. rewrite <- Ee. exact ST.
Qed.
End Cmd.

(** ** Every step *)

Lemma last_leaf : forall c gh G V rd d ipa l b e, Inv c gh G V -> is_rd G rd d -> ipa < 2 ^ ipa_bits (rd_ctx d) -> Leaf gh rd (ipa / 4096) l b e ->
  last_desc 4 (tt_read G) (enable_lpa2 (rd_ctx d)) (s2_sl (rd_ctx d)) (first_desc (rd_ctx d) ipa) ipa = Some (l, enc (enable_lpa2 (rd_ctx d)) l e).
Proof.
  intros c gh G V rd d ipa l b e I R Hi LF. pose proof (inv_ctx _ _ _ _ I _ _ R) as X. pose proof (ctx_sl _ X) as SL.
  destruct (root_own _ _ _ _ I _ _ _ R Hi) as (K & O).
  assert (EA : first_desc (rd_ctx d) ipa = g_rtt (rd_ctx d) + ipa / ms (s2_sl (rd_ctx d)) / 512 * 4096 + 8 * ((ipa / ms (s2_sl (rd_ctx d))) mod 512)).
  { unfold first_desc. rewrite arch_lsb_eq by lia. fold (ms (s2_sl (rd_ctx d))). rewrite (div512 (ipa / ms (s2_sl (rd_ctx d)))) at 1. lia. }
  rewrite EA. apply (last_desc_leaf _ _ _ _ I (Z.to_nat (3 - s2_sl (rd_ctx d))) 4 rd d (s2_sl (rd_ctx d)) _ ipa l b e R eq_refl ltac:(lia) O LF).
Qed.

(** What is known about an entry of the TLB: it holds a descriptor that gave access;
    its realm lives and, on every page of the block, its tables lead to a descriptor
    of the same or a later level that says the same *)
Definition backed (G : N -> granule) (x : s2ctx) (t : tlbe) (e : entry) : Prop :=
  forall ipa, block (t_ipa t) (t_level t) ipa = true -> ipa < 2 ^ ipa_bits x /\ exists l e', (t_level t <= l <= 3)%Z /\ valid_entry (enable_lpa2 x) l e' /\
    last_desc 4 (tt_read G) (enable_lpa2 x) (s2_sl x) (first_desc x ipa) ipa = Some (l, enc (enable_lpa2 x) l e') /\
    view_e l e' ipa = view_e (t_level t) e ipa.
Definition entry_good (all : bool) (m : mstate) (t : tlbe) : Prop :=
  exists lpa2 e, t_word t = enc lpa2 (t_level t) e /\ valid_entry lpa2 (t_level t) e /\ hw_valid e = true /\ (-1 <= t_level t <= 3)%Z /\ t_ipa t mod ms (t_level t) = 0 /\
    (live_e all e -> exists a d, realm m a d /\ vmid (rd_ctx d) = t_vmid t /\ enable_lpa2 (rd_ctx d) = lpa2 /\ backed (m_gr m) (rd_ctx d) t e).
Definition tlb_good (all : bool) (m : mstate) : Prop := forall t, In t (m_tlb m) -> entry_good all m t.

(** The entry behind a descriptor *)
Lemma backed_leaf : forall c gh m a d t e ipa, MInv c gh m -> realm m a d -> backed (m_gr m) (rd_ctx d) t e -> block (t_ipa t) (t_level t) ipa = true -> valid_entry (enable_lpa2 (rd_ctx d)) (t_level t) e -> hw_valid e = true ->
  ipa < 2 ^ ipa_bits (rd_ctx d) /\ exists l b e', Leaf gh a (ipa / 4096) l b e' /\ (t_level t <= l)%Z /\ view_e l e' ipa = view_e (t_level t) e ipa /\ forall all, live_e all e -> live_e all e'.
Proof.
  intros c gh m a d t e ipa M R BK B VE HV. destruct (BK ipa B) as (Hi & l & e' & Hl & VE' & LD & VW). split; [exact Hi|].
  pose proof (mv_inv _ _ _ M) as I. destruct (leaf_of _ _ _ _ I _ _ _ R Hi) as (l1 & b1 & e1 & LF).
  rewrite (last_leaf _ _ _ _ _ _ _ _ _ _ I R Hi LF) in LD. injection LD as -> EE.
  destruct (leaf_level _ _ _ _ I _ _ _ _ _ _ R LF) as (L1 & L2 & VE1 & _).
  assert (V1 : view_e l e1 ipa = view_e l e' ipa).
  { rewrite <- (page_desc_enc (enable_lpa2 (rd_ctx d)) l e1 ipa), <- (page_desc_enc (enable_lpa2 (rd_ctx d)) l e' ipa) by (assumption || lia). rewrite EE. reflexivity. }
  exists l, b1, e1. split; [exact LF|]. split; [apply Hl|]. split; [congruence|].
  intros all LV. rewrite VW in V1. destruct e; try contradiction; destruct e1; try discriminate V1; exact LV.
Qed.


Lemma live_hw : forall all e, live_e all e -> hw_valid e = true.
Proof. intros all e H. destruct e; try contradiction; reflexivity. Qed.

(** A realm with a live entry is not destroyed *)
Lemma realm_lives : forall c h m o m' rp all a d t e, next c h m o m' rp -> allowed all m o -> realm m a d -> live_e all e -> valid_entry (enable_lpa2 (rd_ctx d)) (t_level t) e ->
  (-1 <= t_level t <= 3)%Z -> backed (m_gr m) (rd_ctx d) t e -> exists d', realm m' a d' /\ rd_ctx d' = rd_ctx d.
Proof.
  intros c h m o m' rp all a d t e H OK R LV VE Hl BK.
  assert (DEC : g_state (m_gr m' a) = RD \/ g_state (m_gr m' a) <> RD) by (destruct (g_state (m_gr m' a)); (left; reflexivity) || (right; discriminate)).
  destruct DEC as [E|E].
  { destruct (reach_minv _ _ _ (next_reachable _ _ _ _ _ _ H)) as (gh & M). destruct (i_rd _ _ _ _ (mv_inv _ _ _ M) a E) as (d' & Md & _).
    assert (R' : realm m' a d') by (split; assumption). exists d'. split; [exact R'|]. eapply ctx_step; eassumption. }
  exfalso. assert (MV : moves m o rp a (g_state (m_gr m a)) (g_state (m_gr m' a))).
  { eapply moved; [exact H|]. destruct R as [-> _]. exact E. }
  assert (DD : exists r, done o rp (KRealmDestroy a) r).
  { destruct R as [S _]. rewrite S in MV. inversion MV; subst; eauto. }
  destruct DD as (r & D). destruct (cmd_done_eff _ _ _ _ _ _ _ _ H D) as (gh & gh' & labs & inv & M & M' & GE & K & SU & _).
  assert (B0 : block (t_ipa t) (t_level t) (t_ipa t) = true).
  { unfold block, in_range. rewrite arch_lsb_eq by exact Hl. fold (ms (t_level t)). pose proof (ms_pos (t_level t)). lia. }
  destruct (backed_leaf _ _ _ _ _ _ _ _ M R BK B0 VE (live_hw _ _ LV)) as (Hi & l & b & e' & LF & _ & _ & LV').
  specialize (LV' _ LV). pose proof (mv_inv _ _ _ M) as I.
  destruct (view_leaf _ _ _ _ I _ _ _ _ _ _ R Hi LF) as [_ TX].
  assert (RAM : exists pa, e' = EAsRam pa).
  { destruct all.
    - exfalso. destruct D as (p & -> & _ & _). cbn [allowed gentle] in OK. specialize (OK d (t_ipa t) R). unfold no_memory in OK. rewrite TX in OK.
      destruct e'; try contradiction; discriminate OK.
    - destruct e'; try contradiction; [eauto|discriminate LV']. }
  destruct RAM as (pa & ->). destruct (leaf_level _ _ _ _ I _ _ _ _ _ _ R LF) as (L1 & L2 & VE' & _ & DM).
  specialize (DM _ eq_refl). unfold cmd_eff in K. cbv zeta in K. destruct K as [(NO & _)|(_ & _ & d0 & R0 & _ & _ & ->)]; [contradiction|].
  assert (DG : dmap gh' = dmap gh).
  { inversion GE as [|? ? ? ? gh1 G1 V1 ? ? ? ? X1 X2]; subst. inversion X1; subst. inversion X2; subst. reflexivity. }
  pose proof (mv_inv _ _ _ M') as I'. pose proof DM as D'. rewrite <- DG in D'.
  destruct (i_dmap _ _ _ _ I' _ _ _ D') as (_ & l3 & b3 & pa3 & O3 & _). destruct (own_rd _ _ _ _ I' _ _ _ _ O3) as (d3 & R3 & _). contradiction.
Qed.

Lemma tlb_step : forall c h m o m' rp all, next c h m o m' rp -> allowed all m o -> tlb_good all m -> tlb_good all m'.
Proof.
  intros c h m o m' rp all H OK TG t IN.
  destruct (next_good _ _ _ _ _ _ H) as (gh & gh' & labs & M & M' & GE & OE). pose proof (mv_inv _ _ _ M) as I. pose proof (mv_inv _ _ _ M') as I'.
  (* old entries *)
  assert (OLD : forall inv, In t (m_tlb m) -> (forall v a s, In (v, a, s) inv -> tlb_hit v a s t = false) ->
     (gh' = gh \/ exists p k r, o = OCmd p k /\ cmd_eff c gh (m_gr m) (m_vmids m) k r gh' labs inv /\ rp = Reply r) -> entry_good all m' t).
  { intros inv T NH CS. destruct (TG t T) as (lpa2 & e & EW & VE & HV & Hl & AL & LIVE). exists lpa2, e. do 5 (split; [assumption|]). intro LV.
    destruct (LIVE LV) as (a & d & R & EV & EL & BK). subst lpa2.
    destruct (realm_lives _ _ _ _ _ _ _ _ _ _ _ H OK R LV VE Hl BK) as (d' & R' & EC). exists a, d'. split; [exact R'|]. rewrite EC. do 2 (split; [assumption || reflexivity|]).
    intros ipa B. destruct (backed_leaf _ _ _ _ _ _ _ _ M R BK B VE HV) as (Hi & l & b & e' & LF & Hle & VW & LV'). split; [exact Hi|].
    destruct (leaf_level _ _ _ _ I _ _ _ _ _ _ R LF) as (L1 & L2 & VE' & _).
    assert (LF' : exists b', Leaf gh' a (ipa / 4096) l b' e').
    { destruct CS as [->|(p & k & r & -> & K & ->)]; [exists b; exact LF|].
      assert (ND : no_destroy a labs).
      { eapply cmd_no_destroy; [exact K|]. intros SU ->. eapply (nodestroy _ _ _ _ _ _ _ _ H R' r). exists p. auto. }
      destruct (leafs_step _ _ _ _ _ _ _ _ GE I _ _ _ _ _ _ R ND LF) as (l' & b' & e1 & d2 & LF' & LC & _).
      pose proof (leaf_kept c gh m I all p k r gh' labs inv a d t (t_level t) l b e' l' e1 ipa K OK R (eq_sym EV) eq_refl ltac:(lia) AL B Hi NH LF (LV' _ LV) LC) as X.
      injection X as -> ->. exists b'. exact LF'. }
    destruct LF' as (b' & LF'). exists l, e'. split; [lia|]. split; [exact VE'|]. split; [|exact VW].
    assert (Hi' : ipa < 2 ^ ipa_bits (rd_ctx d')) by (rewrite EC; exact Hi).
    pose proof (last_leaf _ _ _ _ _ _ _ _ _ _ I' R' Hi' LF') as X. rewrite EC in X. exact X. }
  unfold op_eff in OE. destruct o as [p k|p a0 ra en fi tm|p ev fi tm|p regs sp pc ps sys|p ipa rt|p ipa v|p ipa|p a0 f|a0 i v].
  - destruct OE as (_ & r & inv & -> & K & ET & _). rewrite ET in IN. apply invals_in in IN. destruct IN as [IN NH].
    apply (OLD inv IN NH). right. eauto 8.
  - destruct OE as (_ & -> & out & _ & ET & _). rewrite ET in IN. apply (OLD [] IN); [intros ? ? ? []|auto].
  - destruct OE as (-> & ru & r & d & out & at_ & simd & _ & _ & _ & _ & ET & _). rewrite ET in IN. apply (OLD [] IN); [intros ? ? ? []|auto].
  - destruct OE as (-> & _ & (ET & _) & _). rewrite ET in IN. apply (OLD [] IN); [intros ? ? ? []|auto].
  - destruct OE as (-> & _ & (ET & _) & _). rewrite ET in IN. apply (OLD [] IN); [intros ? ? ? []|auto].
  - destruct OE as (-> & _ & (ET & _) & _). rewrite ET in IN. apply (OLD [] IN); [intros ? ? ? []|auto].
  - destruct OE as (-> & _ & -> & _ & _ & ru & r & d & l & w & oa & ns & xn & _ & _ & R & _ & X & ET). rewrite ET in IN.
    destruct IN as [IN|IN]; [|apply (OLD [] IN); [intros ? ? ? []|auto]].
    assert (SR : exists d', realm m' (r_g_rd r) d' /\ rd_ctx d' = rd_ctx d).
    { destruct (rds_stay _ _ _ _ _ _ _ _ GE I (r_g_rd r) d R) as (d' & R' & _ & EC); [intros d0 []|]. exists d'. split; assumption. }
    destruct SR as (d' & R' & EC).
    assert (LF : exists b e, Leaf gh (r_g_rd r) (ipa / 4096) l b e /\ w = enc (enable_lpa2 (rd_ctx d)) l e /\ hw_valid e = true /\ ipa < 2 ^ ipa_bits (rd_ctx d)).
    { inversion X; subst; do 2 eexists; (split; [eassumption|]); (split; [reflexivity|]); (split; [reflexivity|]).
      - eapply N.lt_le_trans; [eassumption|]. apply N.pow_le_mono_r; lia.
      - lia. }
    destruct LF as (b & e & LF & -> & HV & Hi). destruct (leaf_level _ _ _ _ I _ _ _ _ _ _ R LF) as (L1 & L2 & VE & EO).
    pose proof (ms_pos l) as MP. assert (DV : ipa - ipa mod ms l = ipa / ms l * ms l).
    { pose proof (N.div_mod ipa (ms l) ltac:(lia)) as Q. rewrite N.mul_comm in Q. clear - Q. set (u := ipa / ms l * ms l) in *. set (v := ipa mod ms l) in *. clearbody u v. lia. }
    assert (AL : (ipa - ipa mod ms l) mod ms l = 0) by (rewrite DV; apply N.mod_mul; lia).
    assert (E0 : (ipa - ipa mod ms l) / ms l = ipa / ms l) by (rewrite DV; apply N.div_mul; lia).
    subst t. exists (enable_lpa2 (rd_ctx d)), e. cbn [t_word t_level t_ipa t_vmid]. do 3 (split; [assumption || reflexivity|]). split; [lia|]. split; [exact AL|].
    intros _. exists (r_g_rd r), d'. split; [exact R'|]. rewrite EC. do 2 (split; [reflexivity|]). intros i2 B. cbn [t_level t_ipa] in *.
    apply div_of_block in B; [|lia|exact AL]. rewrite E0 in B.
    assert (EP : i2 / 4096 / pg l = ipa / 4096 / pg l) by (rewrite <- !num_page by lia; congruence).
    assert (LF2 : Leaf gh (r_g_rd r) (i2 / 4096) l b e) by (unfold Leaf in *; rewrite EP; exact LF).
    assert (Hi2 : i2 < 2 ^ ipa_bits (rd_ctx d)).
    { apply (num_ipan _ (inv_ctx _ _ _ _ I _ _ R) l); [exact L1|]. rewrite <- B. apply (num_ipan _ (inv_ctx _ _ _ _ I _ _ R) l); [exact L1|exact Hi]. }
    split; [exact Hi2|]. exists l, e. split; [lia|]. split; [exact VE|]. split; [|reflexivity].
    assert (Hi' : i2 < 2 ^ ipa_bits (rd_ctx d')) by (rewrite EC; exact Hi2).
    pose proof (last_leaf _ _ _ _ _ _ _ _ _ _ I' R' Hi' LF2) as Y. rewrite EC in Y. exact Y.
  - destruct OE as (-> & _ & (ET & _) & _). rewrite ET in IN. apply (OLD [] IN); [intros ? ? ? []|auto].
  - destruct OE as (-> & _ & (ET & _) & _). rewrite ET in IN. apply (OLD [] IN); [intros ? ? ? []|auto].
Qed.

Lemma guided_good : forall ok c h m, guided ok c h m -> reachable c h m.
Proof.
  intros ok c h m H. induction H as [mem C|m o m' rp H IH OK NX].
  - split; [exact C|]. exists mem, []. split; constructor.
  - eapply next_reachable. exact NX.
Qed.
Lemma guided_tlb : forall all c h m, guided (allowed all) c h m -> tlb_good all m.
Proof.
  intros all c h m H. induction H as [mem C|m o m' rp H IH OK NX].
  - intros t [].
  - eapply tlb_step; eassumption.
Qed.

Lemma enc_ns_bit : forall lpa2 l at_ pa, valid_entry lpa2 l (EAsNs at_ pa) -> N.testbit (enc lpa2 l (EAsNs at_ pa)) 55 = true.
Proof.
  intros lpa2 l at_ pa V. pose proof (arch_decode_enc lpa2 l _ V) as E. cbv iota in E. unfold arch_decode in E.
  destruct (negb _); [discriminate E|]. destruct (_ =? 3)%Z; [destruct (N.testbit _ 1); [|discriminate E]|destruct (N.testbit _ 1); [discriminate E|]; destruct (_ || _); [|discriminate E]];
    injection E as _ E _; exact E.
Qed.

(** What an entry shows, and what the tables say *)
Lemma cached_live : forall all c h m a d ipa pg t, guided (allowed all) c h m -> realm m a d -> In t (m_tlb m) -> t_vmid t = vmid (rd_ctx d) -> block (t_ipa t) (t_level t) ipa = true ->
  pg = page_desc (enable_lpa2 (rd_ctx d)) (t_level t) (t_word t) ipa -> (all = false -> exists q pa, pg = PAssigned q pa) ->
  page_at (m_gr m) (rd_ctx d) ipa = pg /\ translate (m_gr m) (rd_ctx d) ipa <> XFault.
Proof.
  intros all c h m a d ipa pg t GD R IN EV B EP CS. pose proof (guided_good _ _ _ _ GD) as RC. destruct (guided_tlb _ _ _ _ GD t IN) as (lpa2 & e & EW & VE & HV & Hl & AL & LIVE).
  assert (LV : live_e all e).
  { destruct e; try discriminate HV; cbn [live_e]; auto. destruct all; [reflexivity|]. exfalso. destruct (CS eq_refl) as (q & pa0 & E). subst pg. rewrite EW in E.
    unfold page_desc in E. assert (TB : N.testbit (enc lpa2 (t_level t) (EAsNs attrs pa)) 55 = true) by (apply enc_ns_bit; assumption).
    unfold arch_decode in E. rewrite TB in E. destruct (negb _); [discriminate E|]. destruct (_ =? 3)%Z; [destruct (N.testbit _ 1); discriminate E|].
    destruct (N.testbit _ 1); [discriminate E|]. destruct (_ || _); discriminate E. }
  destruct (LIVE LV) as (a2 & d2 & R2 & EV2 & EL & BK). destruct (vmids _ _ _ RC) as (VU & _).
  assert (a2 = a) as -> by (eapply VU; [exact R2|exact R|congruence]). assert (d2 = d) as -> by (destruct R, R2; congruence). subst lpa2.
  destruct (reach_minv _ _ _ RC) as (gh & M). destruct (backed_leaf _ _ _ _ _ _ _ _ M R BK B VE HV) as (Hi & l & b & e' & LF & Hle & VW & LV').
  destruct (view_leaf _ _ _ _ (mv_inv _ _ _ M) _ _ _ _ _ _ R Hi LF) as [PV TX]. rewrite PV, TX, VW. split.
  - rewrite EP, EW. symmetry. apply page_desc_enc; assumption.
  - specialize (LV' _ LV). destruct e'; try contradiction; discriminate.
Qed.

Lemma cached_all : forall c h m a d ipa pg, guided gentle c h m -> realm m a d -> cached m d ipa pg ->
  page_at (m_gr m) (rd_ctx d) ipa = pg /\ translate (m_gr m) (rd_ctx d) ipa <> XFault.
Proof. intros c h m a d ipa pg GD R (t & IN & EV & B & EP). eapply (cached_live true); eauto. discriminate. Qed.
Lemma cached_realm : forall c h m a d ipa q pa, guided no_large_fold c h m -> realm m a d -> cached m d ipa (PAssigned q pa) ->
  page_at (m_gr m) (rd_ctx d) ipa = PAssigned q pa /\ q = RAM /\ g_state (m_gr m pa) = DATA.
Proof.
  intros c h m a d ipa q pa GD R (t & IN & EV & B & EP). destruct (cached_live false c h m a d ipa (PAssigned q pa) t GD R IN EV B EP) as [E NF]; [eauto|].
  split; [exact E|]. pose proof (translate_page _ _ _ (guided_good _ _ _ _ GD) a d ipa R) as TP. destruct (reach_minv _ _ _ (guided_good _ _ _ _ GD)) as (gh & M).
  split.
  - destruct (translate _ _ _) as [|l w oa ns xn] eqn:TX; [contradiction|]. destruct ns; [destruct TP as (at_ & ap & TP & _)|destruct TP as [TP _]]; congruence.
  - eapply (granule_dmap _ _ _ _ (mv_inv _ _ _ M)); [exact R|]. rewrite E. reflexivity.
Qed.
