(** The invariant of SIMD contexts over all events. *)
From Coq Require Import NArith List Bool Lia.
From Verif Require Import Simd SpecSimd SimdFacts.
Import ListNotations.
Local Open Scope N_scope.

(** ** The two kinds of contexts *)

Record ns_ok (h : simd_hw) (c : sctx) : Prop := {
  no_owner : x_owner c = NWD; no_init : x_init c = true; no_sve : x_sve c = hw_sve h; no_sme : x_sme c = hw_sme h;
  no_cptr : x_cptr c = cptr_enable (cpu_config h) CPTR_INIT; no_zcr2 : hw_sve h = true -> x_zcr2 c = hw_vq h 15 }.
Record rec_ok (h : simd_hw) (g : simd_config) (c : sctx) : Prop := {
  ro_owner : x_owner c = REL1; ro_init : x_init c = true; ro_sve : x_sve c = sve_en g; ro_sme : x_sme c = false; ro_gsme : sme_en g = false;
  ro_hint : x_hint c = false; ro_cptr : x_cptr c = cptr_enable g CPTR_INIT; ro_zcr2 : sve_en g = true -> x_zcr2 c = sve_vq g /\ sve_vq g <= hw_vq h 15;
  ro_hw : sve_en g = true -> hw_sve h = true }.

Lemma enable_flags : forall g, fpen (cptr_enable g CPTR_INIT) = true /\ zen (cptr_enable g CPTR_INIT) = sve_en g /\ smen (cptr_enable g CPTR_INIT) = sme_en g.
Proof. intros [[] q []]; repeat split. Qed.
Lemma enable_twice : forall g, cptr_enable g CPTR_INIT = cptr_enable g CPTR_INIT /\ cptr_disable (cptr_enable g CPTR_INIT) = CPTR_INIT.
Proof. intros [[] q []]; repeat split. Qed.
Lemma config_vq : forall h, hw_sve h = true -> sve_vq (cpu_config h) = hw_vq h 15.
Proof.
  intros h E. unfold cpu_config. rewrite E. cbn [sve_vq]. change (N.land 15 15) with 15.
  replace (16 * (hw_vq h 15 + 1) * 8) with ((hw_vq h 15 + 1) * 128) by lia. rewrite N.div_mul by discriminate. lia.
Qed.

Lemma ns_usable : forall h c, ns_ok h c -> usable h c.
Proof.
  intros h c [A B C D E F]. unfold usable. rewrite C, D, E. destruct (enable_flags (cpu_config h)) as (X & Y & Z).
  split; [exact X|]. rewrite Y, Z. cbn. auto.
Qed.
Lemma rec_usable : forall h g c, rec_ok h g c -> usable h c.
Proof.
  intros h g c [A B C D D' D'' E F G]. unfold usable. rewrite C, D, E. destruct (enable_flags g) as (X & Y & Z).
  split; [exact X|]. rewrite Y. split; [auto|]. split; discriminate.
Qed.

Lemma land15 : forall n, n <= 15 -> N.land n 15 = n.
Proof. intros n H. change 15 with (N.ones 4). rewrite N.land_ones. apply N.mod_small. change (2 ^ 4) with 16. lia. Qed.

(** The context [c] of the host holds [w], and the CPU, with registers [r], still has
    what the context does not hold. *)
Definition parked (h : simd_hw) (c : sctx) (w r : regs) : Prop :=
  holds h c w /\ (hw_sve h = true -> x_ns_zcr2 c = v_zcr2 w) /\ (hw_sve h = false -> v_zcr2 r = v_zcr2 w /\ v_zcr1 r = v_zcr1 w) /\
  (hw_sme h = false -> v_svcr r = v_svcr w) /\ v_smcr r = v_smcr w /\ v_za r = v_za w /\ streaming h r = false.

Lemma ns_save : forall h c r, hw_ok h -> ns_ok h c -> let r0 := set_cptr (x_cptr c) r in
  exists c1 c2 r2, match x_owner c with NWD => save_ns_el2_config c r0 | REL1 => SOk c end = SOk c1 /\
    save_simd_context h c1 r0 = SOk (c2, r2) /\ ns_ok h c2 /\ x_hint c2 = x_hint c /\ parked h c2 r r2 /\ v_cptr r2 = x_cptr c2.
Proof.
  intros h c r W O r0. pose proof (ns_usable _ _ O) as U. destruct O as [A B C D E F].
  assert (E1 : save_ns_el2_config c r0 = SOk (if x_sve c then set_ns_zcr2 (v_zcr2 r0) c else c)).
  { unfold save_ns_el2_config. destruct U as (_ & UZ & _). destruct (x_sve c); [|reflexivity]. unfold r0 at 1. cbn [v_cptr set_cptr]. rewrite UZ by reflexivity. reflexivity. }
  rewrite A, E1. set (c1 := if x_sve c then set_ns_zcr2 (v_zcr2 r0) c else c) in *.
  assert (K : x_owner c1 = NWD /\ x_init c1 = true /\ x_sve c1 = hw_sve h /\ x_sme c1 = hw_sme h /\ x_cptr c1 = x_cptr c /\ x_zcr2 c1 = x_zcr2 c /\ x_hint c1 = x_hint c /\
    (hw_sve h = true -> x_ns_zcr2 c1 = v_zcr2 r)).
  { unfold c1. rewrite <- C. destruct (x_sve c) eqn:V; cbn; repeat split; auto; discriminate. }
  destruct K as (K1 & K2 & K3 & K4 & K5 & K6 & K7 & K8). clearbody c1.
  assert (U1 : usable h c1) by (apply ns_usable; constructor; try congruence; intros V; rewrite K6; auto).
  destruct (save_ok h c1 r0 W U1) as (c2 & r2 & S & (T1 & T2 & T3 & T4 & T5 & T6 & T7 & T8) & HO & _ & Z1 & Z2 & SV & M2 & ZA & CP & _).
  { unfold r0. cbn. congruence. }
  { rewrite K4. unfold streaming. intros ->. reflexivity. }
  exists c1, c2, r2. split; [reflexivity|]. split; [exact S|].
  split; [constructor; try congruence; intros V; rewrite T7, K6; auto|]. split; [congruence|].
  split.
  { split; [exact HO|]. split; [intros V; rewrite T8; auto|]. rewrite Z1, Z2, SV, K3. split; [intros ->; split; reflexivity|].
    unfold mode_streaming. rewrite K4.
    split; [intros ->; reflexivity|]. split; [exact M2|]. split; [exact ZA|].
    unfold streaming, sm. rewrite SV. unfold mode_streaming. rewrite K4. destruct (hw_sme h); [|reflexivity]. cbn [andb]. unfold sm.
    destruct (N.testbit (v_svcr r0) 0) eqn:Q; [|exact Q]. rewrite N.ldiff_spec, Q. reflexivity. }
  rewrite CP, T6, K5. reflexivity.
Qed.

Lemma ns_restore : forall h c w r hint, hw_ok h -> ns_ok h c -> parked h c w r -> v_cptr r = x_cptr c -> (hw_sve h = true -> x_hint c = hint) ->
  exists r1 r2, restore_simd_context h c r = SOk r1 /\
    match x_owner c with NWD => restore_el2_config c (x_ns_zcr2 c) r1 | REL1 => SOk r1 end = SOk r2 /\ host_same h hint w r2.
Proof.
  intros h c w r hint W O (HO & P1 & P2 & P3 & P4 & P5 & P6) CP HI. pose proof (ns_usable _ _ O) as U. destruct O as [A B C D E F].
  destruct (restore_ok h c r w W U CP) as (r1 & R & R1 & R2 & R3 & R4 & R5 & R6 & R7 & R8 & R9 & R10).
  { auto. }
  { auto. }
  { rewrite D. unfold mode_streaming. rewrite D. destruct (hw_sme h); auto. }
  { exact HO. }
  exists r1. rewrite A.
  destruct (restore_el2_ok c (x_ns_zcr2 c) r1) as (r2 & E2 & V2).
  { rewrite R8, CP. destruct U as (_ & UZ & _). exact UZ. }
  exists r2. split; [exact R|]. split; [exact E2|].
  assert (G : v_fpsr r2 = v_fpsr r1 /\ v_fpcr r2 = v_fpcr r1 /\ v_zcr1 r2 = v_zcr1 r1 /\ v_svcr r2 = v_svcr r1 /\ v_smcr r2 = v_smcr r1 /\ v_za r2 = v_za r1 /\
    v_z r2 = v_z r1 /\ v_p r2 = v_p r1 /\ v_ffr r2 = v_ffr r1 /\ v_zcr2 r2 = if x_sve c then x_ns_zcr2 c else v_zcr2 r1)
    by (rewrite V2; destruct (x_sve c); repeat split).
  destruct G as (G1 & G2 & G3 & G4 & G5 & G6 & G7 & G8 & G9 & G10). rewrite C in *. rewrite D in *.
  assert (ST : streaming h w = mode_streaming c w) by (unfold streaming, mode_streaming; rewrite D; reflexivity).
  assert (Q15 : hw_sve h = true -> N.land (x_zcr2 c) 15 = hw_vq h 15 /\ hw_vq h (N.land (x_zcr2 c) 15) = hw_vq h 15).
  { intros V. destruct W as (W1 & W2 & _). rewrite (F V), land15 by apply W1. split; [reflexivity|apply W2]. }
  unfold host_same. rewrite G1, G2, G3, G4, G5, G6, G7, G8, G9, G10.
  split; [exact R1|]. split; [exact R2|].
  split; [rewrite R3; destruct (hw_sve h); [reflexivity|apply P2; reflexivity]|].
  split; [rewrite R4; destruct (hw_sve h); [apply P1; reflexivity|apply P2; reflexivity]|].
  split; [rewrite R5; destruct (hw_sme h); [reflexivity|apply P3; reflexivity]|].
  split; [congruence|]. split; [congruence|]. split; [exact R9|].
  rewrite ST. intros S. cbv zeta.
  destruct (mode_streaming c w) eqn:M; cbn [orb negb] in *.
  - rewrite orb_true_r in R10. destruct R10 as (X & Y & Z). unfold ctx_vq, kept_or in *.
    split; [exact X|]. split; [exact Y|]. intros [Q|Q]; [discriminate|]. auto.
  - rewrite S in *. destruct (Q15 eq_refl) as (_ & Q). rewrite orb_false_r in R10. unfold mode_normal in R10. rewrite C, M, (HI eq_refl) in R10. cbn [andb negb] in R10. rewrite andb_true_r in R10.
    unfold ctx_vq in R10. rewrite Q in R10. destruct hint; cbn [negb] in *.
    + destruct (R10 eq_refl) as (X & Y & Z). unfold kept_or.
      split; [|split].
      * intros i j Hi Hj. destruct (N.lt_ge_cases j 16) as [L|L]; [left; apply R9; assumption|right; apply X; assumption].
      * intros i j Hi Hj. right. apply Y. assumption.
      * intros _ j Hj. right. apply Z.
    + destruct R10 as (X & Y & Z). unfold kept_or. split; [exact X|]. split; [exact Y|]. intros _. apply Z. reflexivity.
Qed.

Lemma rec_save : forall h g c r, hw_ok h -> rec_ok h g c -> v_cptr r = x_cptr c -> streaming h r = false ->
  exists c2 r2, save_simd_context h c r = SOk (c2, r2) /\ rec_ok h g c2 /\ holds h c2 r /\ v_cptr r2 = v_cptr r /\ streaming h r2 = false /\
    (forall d w, parked h d w r -> parked h d w r2).
Proof.
  intros h g c r W O CP ST. pose proof (rec_usable _ _ _ O) as U. destruct O as [A B C D D' D'' E F G].
  destruct (save_ok h c r W U CP (fun _ => ST)) as (c2 & r2 & S & (T1 & T2 & T3 & T4 & T5 & T6 & T7 & T8) & HO & _ & Z1 & Z2 & SV & M2 & ZA & CP2 & _).
  exists c2, r2. split; [exact S|].
  split; [constructor; try congruence; intros V; rewrite ?T7; auto|]. split; [exact HO|]. split; [exact CP2|].
  assert (SV' : v_svcr r2 = v_svcr r) by (rewrite SV; unfold mode_streaming; rewrite D; reflexivity).
  assert (ST' : streaming h r2 = streaming h r) by (unfold streaming, sm; rewrite SV'; reflexivity).
  split; [congruence|].
  intros d w (P0 & P1 & P2 & P3 & P4 & P5 & P6). split; [exact P0|]. split; [exact P1|].
  split; [intros V; rewrite Z1, Z2, C; destruct (sve_en g) eqn:Q; [rewrite (G eq_refl) in V; discriminate|auto]|].
  split; [rewrite SV'; exact P3|]. rewrite M2, ZA, ST'. auto.
Qed.

Lemma rec_restore : forall h g c v r, hw_ok h -> rec_ok h g c -> v_cptr r = x_cptr c -> streaming h r = false -> holds h c v ->
  exists r2, restore_simd_context h c r = SOk r2 /\ realm_same h g v r2 /\ v_cptr r2 = v_cptr r /\ streaming h r2 = false /\
    (forall d w, parked h d w r -> parked h d w r2).
Proof.
  intros h g c v r W O CP ST HO. pose proof (rec_usable _ _ _ O) as U. destruct O as [A B C D D' D'' E F G].
  assert (MS : mode_streaming c v = false) by (unfold mode_streaming; rewrite D; reflexivity).
  destruct (restore_ok h c r v W U CP (fun _ => ST)) as (r2 & R & R1 & R2 & R3 & R4 & R5 & R6 & R7 & R8 & R9 & R10); [congruence|right; exact MS|exact HO|].
  exists r2. split; [exact R|]. rewrite D in R5. rewrite C in *.
  split.
  { split; [exact R1|]. split; [exact R2|]. split; [exact R9|]. intros V. rewrite V in *. split; [exact R3|].
    unfold mode_normal in R10. rewrite MS, C, D'' in R10. cbn [andb negb orb] in R10. unfold ctx_vq in R10. destruct (F eq_refl) as (F1 & F2).
    rewrite F1, land15 in R10; [|etransitivity; [exact F2|apply W]]. destruct R10 as (X & Y & Z). auto. }
  split; [exact R8|]. split; [unfold streaming, sm in *; rewrite R5; exact ST|].
  intros d w (P0 & P1 & P2 & P3 & P4 & P5 & P6). split; [exact P0|]. split; [exact P1|].
  split; [intros V; rewrite R3, R4; destruct (sve_en g) eqn:Q; [rewrite (G eq_refl) in V; discriminate|auto]|].
  split; [rewrite R5; exact P3|]. rewrite R6, R7. split; [exact P4|]. split; [exact P5|].
  unfold streaming, sm in *. rewrite R5. exact P6.
Qed.

(** ** Facts about the relations of the specification *)

Lemma host_refl : forall h hint r, host_same h hint r r.
Proof. intros h hint r. unfold host_same. assert (K : forall f a, kept_or f a a) by (intros [] a; unfold kept_or; auto).
  do 7 (split; [reflexivity|]). split; [auto|]. intros _. cbv zeta. auto. Qed.
Lemma kept_trans : forall f a b c, kept_or f a b -> kept_or f b c -> kept_or f a c.
Proof. intros [] a b c; unfold kept_or; [congruence|]. intros [->| ->] [->| ->]; auto. Qed.
Lemma host_trans : forall h hint a b c, host_same h hint a b -> host_same h hint b c -> host_same h hint a c.
Proof.
  intros h hint a b c (A1 & A2 & A3 & A4 & A5 & A6 & A7 & A8 & A9) (B1 & B2 & B3 & B4 & B5 & B6 & B7 & B8 & B9).
  assert (S : streaming h b = streaming h a) by (unfold streaming, sm; rewrite A5; reflexivity).
  assert (M : fa64 b = fa64 a) by (unfold fa64; rewrite A6; reflexivity).
  rewrite S, M, A6 in B9.
  split; [congruence|]. split; [congruence|]. split; [congruence|]. split; [congruence|]. split; [congruence|]. split; [congruence|]. split; [congruence|].
  split; [intros i j Hi Hj; rewrite B8, A8 by assumption; reflexivity|].
  intros V. destruct (A9 V) as (X1 & X2 & X3). destruct (B9 V) as (Y1 & Y2 & Y3). cbv zeta in *.
  split; [|split].
  - intros i j Hi Hj. eapply kept_trans; [apply X1|apply Y1]; assumption.
  - intros i j Hi Hj. eapply kept_trans; [apply X2|apply Y2]; assumption.
  - intros Q j Hj. eapply kept_trans; [apply X3|apply Y3]; assumption.
Qed.
Lemma realm_refl : forall h g r, realm_same h g r r.
Proof. intros h g r. unfold realm_same. repeat split; auto. Qed.
Lemma realm_trans : forall h g a b c, realm_same h g a b -> realm_same h g b c -> realm_same h g a c.
Proof.
  intros h g a b c (A1 & A2 & A3 & A4) (B1 & B2 & B3 & B4).
  split; [congruence|]. split; [congruence|]. split; [intros i j Hi Hj; rewrite B3, A3 by assumption; reflexivity|].
  intros V. destruct (A4 V) as (X0 & X1 & X2 & X3). destruct (B4 V) as (Y0 & Y1 & Y2 & Y3).
  split; [congruence|]. split; [intros; rewrite Y1, X1 by assumption; reflexivity|]. split; [intros; rewrite Y2, X2 by assumption; reflexivity|].
  intros; rewrite Y3, X3 by assumption; reflexivity.
Qed.

Lemma realm_sym : forall h g a b, realm_same h g a b -> realm_same h g b a.
Proof.
  intros h g a b (A1 & A2 & A3 & A4). split; [congruence|]. split; [congruence|]. split; [intros; symmetry; auto|].
  intros V. destruct (A4 V) as (X0 & X1 & X2 & X3). repeat split; intros; symmetry; auto.
Qed.
Lemma parked_vec : forall h c w r b n, (b = true -> hw_sve h = true) -> parked h c w r -> parked h c w (vec_use b n r).
Proof.
  intros h c w r b n B (P0 & P1 & P2 & P3 & P4 & P5 & P6). split; [exact P0|]. split; [exact P1|].
  split; [intros V; cbn; destruct b; [rewrite B in V by reflexivity; discriminate|auto]|]. auto.
Qed.

(** ** Context switches in a state *)

Section SWITCH.
Context (h : simd_hw) (W : hw_ok h).

Lemma save_ns_state : forall s p, q_saved s p = false -> ns_ok h (q_ns s p) -> x_saved (q_ns s p) = false ->
  exists c r, switch_save h p (PNs p) s = SOk (with_saved p true (with_ns p (set_saved true c) (with_cpu p r s))) /\
    ns_ok h (set_saved true c) /\ x_hint c = x_hint (q_ns s p) /\ parked h (set_saved true c) (q_cpu s p) r /\ v_cptr r = x_cptr c.
Proof using W.
  intros s p S O N. destruct (ns_save h (q_ns s p) (q_cpu s p) W O) as (c1 & c & r & E1 & E2 & O2 & H2 & P2 & C2).
  exists c, r. unfold switch_save. cbn [deref]. rewrite (no_init _ _ O), N, S. cbn [must sbind negb].
  rewrite E1. cbn [sbind]. rewrite E2. cbn [sbind assign].
  split; [reflexivity|]. split; [destruct O2; constructor; assumption|]. split; [exact H2|]. split; [exact P2|exact C2].
Qed.

Lemma restore_ns_state : forall s p w hint, q_saved s p = true -> ns_ok h (q_ns s p) -> x_saved (q_ns s p) = true ->
  parked h (q_ns s p) w (q_cpu s p) -> (hw_sve h = true -> x_hint (q_ns s p) = hint) ->
  exists r, switch_restore h p (PNs p) s = SOk (with_saved p false (with_ns p (set_saved false (q_ns s p)) (with_cpu p r s))) /\ host_same h hint w r.
Proof using W.
  intros s p w hint S O N P HI.
  set (r0 := if v_cptr (q_cpu s p) =? x_cptr (q_ns s p) then q_cpu s p else set_cptr (x_cptr (q_ns s p)) (q_cpu s p)).
  assert (R0 : r0 = set_cptr (x_cptr (q_ns s p)) (q_cpu s p)).
  { unfold r0. destruct (N.eqb_spec (v_cptr (q_cpu s p)) (x_cptr (q_ns s p))) as [<-|]; [destruct (q_cpu s p)|]; reflexivity. }
  destruct (ns_restore h (q_ns s p) w r0 hint W O) as (r1 & r2 & E1 & E2 & HS).
  { rewrite R0. exact P. }
  { rewrite R0. reflexivity. }
  { exact HI. }
  exists r2. unfold switch_restore. cbn [deref]. rewrite (no_init _ _ O), N, S. cbn [must sbind]. fold r0. rewrite E1. cbn [sbind]. rewrite E2. cbn [sbind assign].
  split; [reflexivity|exact HS].
Qed.

Definition new_ctx (x : srec) (c : sctx) : srec := mkSRec c (r_cfg x) (r_cptr x) (r_active x) (r_on x).

Lemma save_rec_state : forall s p i x, q_saved s p = false -> q_rec s i = Some x -> rec_ok h (r_cfg x) (r_ctx x) -> x_saved (r_ctx x) = false ->
  streaming h (q_cpu s p) = false ->
  exists c r, switch_save h p (PRec i) s = SOk (with_saved p true (with_rec i (Some (new_ctx x (set_saved true c))) (with_cpu p r s))) /\
    rec_ok h (r_cfg x) (set_saved true c) /\ holds h (set_saved true c) (q_cpu s p) /\ streaming h r = false /\
    (forall d w, parked h d w (q_cpu s p) -> parked h d w r).
Proof using W.
  intros s p i x S E O N ST. unfold switch_save. cbn [deref]. rewrite E. cbn [option_map]. rewrite (ro_init _ _ _ O), N, S. cbn [must sbind negb].
  destruct (rec_save h (r_cfg x) (r_ctx x) (set_cptr (x_cptr (r_ctx x)) (q_cpu s p)) W O eq_refl ST) as (c & r & E2 & O2 & H2 & C2 & S2 & P2).
  rewrite (ro_owner _ _ _ O). cbn [sbind]. rewrite E2. cbn [sbind assign with_cpu q_rec]. rewrite E.
  exists c, r. split; [reflexivity|]. split; [destruct O2; constructor; assumption|]. split; [exact H2|]. split; [exact S2|exact P2].
Qed.

Lemma restore_rec_state : forall s p i x v, q_saved s p = true -> q_rec s i = Some x -> rec_ok h (r_cfg x) (r_ctx x) -> x_saved (r_ctx x) = true ->
  streaming h (q_cpu s p) = false -> holds h (r_ctx x) v ->
  exists r, switch_restore h p (PRec i) s = SOk (with_saved p false (with_rec i (Some (new_ctx x (set_saved false (r_ctx x)))) (with_cpu p r s))) /\
    realm_same h (r_cfg x) v r /\ streaming h r = false /\ (forall d w, parked h d w (q_cpu s p) -> parked h d w r).
Proof using W.
  intros s p i x v S E O N ST HO. unfold switch_restore. cbn [deref]. rewrite E. cbn [option_map]. rewrite (ro_init _ _ _ O), N, S. cbn [must sbind].
  set (r0 := if v_cptr (q_cpu s p) =? x_cptr (r_ctx x) then q_cpu s p else set_cptr (x_cptr (r_ctx x)) (q_cpu s p)).
  assert (R0 : r0 = set_cptr (x_cptr (r_ctx x)) (q_cpu s p)).
  { unfold r0. destruct (N.eqb_spec (v_cptr (q_cpu s p)) (x_cptr (r_ctx x))) as [<-|]; [destruct (q_cpu s p)|]; reflexivity. }
  destruct (rec_restore h (r_cfg x) (r_ctx x) v r0 W O) as (r & E2 & RS & C2 & S2 & P2); [rewrite R0; reflexivity|rewrite R0; exact ST|exact HO|].
  rewrite E2, (ro_owner _ _ _ O). cbn [sbind assign with_cpu q_rec]. rewrite E.
  exists r. split; [reflexivity|]. split; [exact RS|]. split; [exact S2|].
  intros d w P. apply P2. rewrite R0. exact P.
Qed.
End SWITCH.

(** ** The invariant *)

(** [G p]: the hint and the registers of the host's last call on CPU [p]; [L i]: what REC
    [i] left in its registers. *)
Section INV.
Context (h : simd_hw) (W : hw_ok h).

(** REC [i] is being run by CPU [p]. *)
Definition act (G : N -> bool * regs) (L : N -> regs) (s : sstate) (p i : N) (x : srec) : Prop :=
  q_rec s i = Some x /\ r_on x = Some p /\ q_saved s p = false /\ (hw_sve h = true -> x_hint (q_ns s p) = fst (G p)) /\
  ((r_active x = Some (PNs p) /\ x_saved (q_ns s p) = false /\ x_saved (r_ctx x) = true /\ r_cptr x = CPTR_INIT /\
    host_same h (fst (G p)) (snd (G p)) (q_cpu s p) /\ exists w, holds h (r_ctx x) w /\ realm_same h (r_cfg x) (L i) w) \/
   (r_active x = Some (PRec i) /\ x_saved (q_ns s p) = true /\ x_saved (r_ctx x) = false /\ r_cptr x = cptr_enable (r_cfg x) CPTR_INIT /\
    streaming h (q_cpu s p) = false /\ (exists w, host_same h (fst (G p)) (snd (G p)) w /\ parked h (q_ns s p) w (q_cpu s p)) /\
    realm_same h (r_cfg x) (L i) (q_cpu s p))).

Definition cpu_ok G L s p : Prop :=
  ns_ok h (q_ns s p) /\
  match q_run s p with
  | None => q_saved s p = false /\ x_saved (q_ns s p) = false /\ v_cptr (q_cpu s p) = CPTR_INIT /\ host_same h (fst (G p)) (snd (G p)) (q_cpu s p)
  | Some (i, rmm) => rmm = CPTR_INIT /\ exists x, act G L s p i x /\ v_cptr (q_cpu s p) = r_cptr x
  end.
Definition recs_ok (L : N -> regs) s i : Prop :=
  forall x, q_rec s i = Some x -> rec_ok h (r_cfg x) (r_ctx x) /\
  match r_on x with
  | None => r_active x = None /\ x_saved (r_ctx x) = true /\ r_cptr x = CPTR_INIT /\ exists w, holds h (r_ctx x) w /\ realm_same h (r_cfg x) (L i) w
  | Some p => exists rmm, q_run s p = Some (i, rmm)
  end.
Definition sinv G L s : Prop := (forall p, cpu_ok G L s p) /\ (forall i, recs_ok L s i).

(** Everything but CPU [p] and REC [i] is in order. *)
Definition others G L s p i : Prop :=
  (forall q, q <> p -> cpu_ok G L s q) /\ (forall j, j <> i -> recs_ok L s j) /\
  (forall j x, j <> i -> q_rec s j = Some x -> r_on x <> Some p) /\ (forall q rmm, q <> p -> q_run s q <> Some (i, rmm)).
(** In the RMM, on behalf of REC [i]. *)
Definition mid G L s p i : Prop :=
  others G L s p i /\ ns_ok h (q_ns s p) /\ v_cptr (q_cpu s p) = CPTR_INIT /\ exists x, act G L s p i x /\ rec_ok h (r_cfg x) (r_ctx x).

Definition frame (p i : N) (s s' : sstate) : Prop :=
  (forall q, q <> p -> q_cpu s' q = q_cpu s q /\ q_saved s' q = q_saved s q /\ q_ns s' q = q_ns s q /\ q_run s' q = q_run s q) /\
  (forall j, j <> i -> q_rec s' j = q_rec s j).

Lemma act_same : forall G L G' L' s s' p i x, q_cpu s' p = q_cpu s p -> q_saved s' p = q_saved s p -> q_ns s' p = q_ns s p -> q_rec s' i = q_rec s i ->
  G' p = G p -> L' i = L i -> act G L s p i x -> act G' L' s' p i x.
Proof. intros G L G' L' s s' p i x E1 E2 E3 E4 E5 E6 A. unfold act. rewrite E1, E2, E3, E4, E5, E6. exact A. Qed.

Lemma others_frame : forall G L G' L' s s' p i, others G L s p i -> frame p i s s' -> (forall q, q <> p -> G' q = G q) -> (forall j, j <> i -> L' j = L j) ->
  others G' L' s' p i.
Proof.
  intros G L G' L' s s' p i (O1 & O2 & O3 & O4) (F1 & F2) HG HL. split; [|split; [|split]].
  - intros q Q. specialize (O1 q Q). destruct (F1 q Q) as (E1 & E2 & E3 & E4). unfold cpu_ok in *. rewrite E1, E2, E3, E4, HG by assumption.
    destruct O1 as (X & Y). split; [exact X|]. destruct (q_run s q) as [[j rmm]|] eqn:R; [|exact Y].
    destruct Y as (Y1 & x & Y2 & Y3). split; [exact Y1|]. assert (j <> i) by (intros ->; exact (O4 q rmm Q R)).
    exists x. split; [|exact Y3]. eapply act_same; [..|exact Y2]; auto.
  - intros j J x Hx. rewrite F2 in Hx by assumption. specialize (O2 j J x Hx). destruct O2 as (X & Y). split; [exact X|]. rewrite HL by assumption.
    destruct (r_on x) as [q|] eqn:R; [|exact Y]. assert (q <> p) by (intros ->; exact (O3 j x J Hx R)).
    destruct Y as (rmm & Y). exists rmm. destruct (F1 q) as (_ & _ & _ & E); [assumption|]. congruence.
  - intros j x J Hx. rewrite F2 in Hx by assumption. eauto.
  - intros q rmm Q. destruct (F1 q Q) as (_ & _ & _ & E). rewrite E. auto.
Qed.

Lemma sinv_others : forall G L s p i, sinv G L s -> (forall j rmm, q_run s p = Some (j, rmm) -> j = i) ->
  (forall x q, q_rec s i = Some x -> r_on x = Some q -> q = p) -> others G L s p i.
Proof.
  intros G L s p i (I1 & I2) H1 H2. split; [auto|split; [auto|split]].
  - intros j x J Hx R. specialize (I2 j x Hx). rewrite R in I2. destruct I2 as (_ & rmm & I2). exact (J (H1 _ _ I2)).
  - intros q rmm Q R. specialize (I1 q). unfold cpu_ok in I1. rewrite R in I1. destruct I1 as (_ & _ & x & (A1 & A2 & _) & _).
    exact (Q (H2 _ _ A1 A2)).
Qed.

Ltac ups := repeat progress (cbn [q_cpu q_saved q_ns q_rec q_run with_cpu with_saved with_ns with_rec with_run fst snd
    r_ctx r_cfg r_cptr r_active r_on new_ctx set_active set_on set_rcptr must negb sbind] in *; unfold upd in *; rewrite ?N.eqb_refl in *).
Ltac fr := split; [intros q Q; ups; rewrite ?(proj2 (N.eqb_neq _ _) Q); auto|intros j JJ; ups; rewrite ?(proj2 (N.eqb_neq _ _) JJ); auto].

Lemma frame_refl : forall p i s, frame p i s s.
Proof. intros. fr. Qed.

(** Leaving the run loop *)
Lemma leave_ok : forall G L s p i, mid G L s p i -> exists s', leave h p i s = SOk s' /\ sinv G L s' /\ q_run s' p = None.
Proof using W.
  intros G L s p i (O & NO & CP & x & (A1 & A2 & A3 & A4 & A) & RO). unfold leave. rewrite A1.
  destruct A as [(B1 & B2 & B3 & B4 & B5 & w & B6 & B7)|(B1 & B2 & B3 & B4 & B5 & (w & B6 & B7) & B8)]; rewrite B1; cbn [active_is ptr_eqb].
  - cbn [sbind]. rewrite A1. unfold smc_end. ups. rewrite A3. cbn [must negb sbind]. eexists. split; [reflexivity|].
    assert (O' : others G L (with_run p None (with_rec i (Some (set_on None (set_active None x))) s)) p i) by (eapply others_frame; [exact O|fr|auto|auto]).
    split; [|ups; reflexivity]. split.
    + intros q. destruct (N.eq_dec q p) as [->|Q]; [|apply O'; exact Q]. unfold cpu_ok. ups. auto.
    + intros j. destruct (N.eq_dec j i) as [->|J]; [|apply O'; exact J]. intros y Hy. ups. injection Hy as <-. cbn. split; [exact RO|]. eauto 10.
  - rewrite N.eqb_refl. unfold simd_switch. cbn [must sbind].
    destruct (save_rec_state h W s p i x A3 A1 RO B3 B5) as (c & r & E1 & RO' & HO & ST & PK). rewrite E1. cbn [sbind]. clear E1.
    set (s1 := with_saved p true _).
    destruct (restore_ns_state h W s1 p w (fst (G p))) as (r2 & E2 & HS).
    { unfold s1. ups. reflexivity. }
    { exact NO. }
    { exact B2. }
    { unfold s1. ups. apply PK. exact B7. }
    { exact A4. }
    rewrite E2. cbn [sbind]. clear E2. unfold s1. unfold smc_end. ups. eexists. split; [reflexivity|].
    match goal with |- sinv _ _ ?t /\ _ => set (s' := t) end.
    assert (F : frame p i s s') by (unfold s'; fr).
    assert (O' : others G L s' p i) by (eapply others_frame; [exact O|exact F|auto|auto]).
    split; [|unfold s'; ups; reflexivity]. split.
    + intros q. destruct (N.eq_dec q p) as [->|Q]; [|apply O'; exact Q]. unfold cpu_ok, s'. ups. cbn [x_saved set_saved v_cptr set_cptr].
      split; [destruct NO; constructor; assumption|]. split; [reflexivity|]. split; [reflexivity|]. split; [exact CP|].
      eapply host_trans; [exact B6|exact HS].
    + intros j. destruct (N.eq_dec j i) as [->|J]; [|apply O'; exact J]. intros y Hy. unfold s' in Hy. ups. injection Hy as <-. ups.
      split; [exact RO'|]. cbn. split; [reflexivity|]. split; [reflexivity|]. split; [rewrite B4; apply enable_twice|].
      exists (q_cpu s p). split; [exact HO|exact B8].
Qed.

Lemma round_ok : forall G L s p i b, mid G L s p i -> exists s', round h p i b s = SOk s' /\ sinv G L s' /\ (q_run s' p = None \/ exists rmm, q_run s' p = Some (i, rmm)).
Proof using W.
  intros G L s p i b M. unfold round. destruct b.
  { destruct (leave_ok _ _ _ _ _ M) as (s' & E & I & R). exists s'. auto. }
  destruct M as (O & NO & CP & x & A & RO). pose proof A as (A1 & A2 & A3 & A4 & A5). rewrite A1, CP. eexists. split; [reflexivity|].
  set (s1 := if CPTR_INIT =? r_cptr x then s else with_cpu p (set_cptr (r_cptr x) (q_cpu s p)) s).
  assert (S1 : q_cpu s1 p = set_cptr (r_cptr x) (q_cpu s p) /\ q_saved s1 = q_saved s /\ q_ns s1 = q_ns s /\ q_rec s1 = q_rec s /\ q_run s1 = q_run s /\
    (forall q, q <> p -> q_cpu s1 q = q_cpu s q)).
  { unfold s1. destruct (N.eqb_spec CPTR_INIT (r_cptr x)) as [E|]; [|ups; repeat split; intros q Q; rewrite (proj2 (N.eqb_neq _ _) Q); reflexivity].
    repeat split. rewrite <- E, <- CP. destruct (q_cpu s p). reflexivity. }
  destruct S1 as (S1 & S2 & S3 & S4 & S5 & S6). clearbody s1.
  assert (F : frame p i s (with_run p (Some (i, CPTR_INIT)) s1)).
  { split; [intros q Q; ups; rewrite (proj2 (N.eqb_neq _ _) Q), S2, S3, S5, S6; auto|intros j J; ups; rewrite S4; reflexivity]. }
  assert (O' : others G L (with_run p (Some (i, CPTR_INIT)) s1) p i) by (eapply others_frame; [exact O|exact F|auto|auto]).
  split; [|right; ups; eauto]. split.
  - intros q. destruct (N.eq_dec q p) as [->|Q]; [|apply O'; exact Q]. unfold cpu_ok, act. ups. rewrite S1, S2, S3, S4. split; [exact NO|]. split; [reflexivity|].
    exists x. split; [|reflexivity]. exact A.
  - intros j. destruct (N.eq_dec j i) as [->|J]; [|apply O'; exact J]. intros y Hy. ups. rewrite S4, A1 in Hy. injection Hy as <-. split; [exact RO|].
    rewrite A2. ups. eauto.
Qed.

Lemma stop_ok : forall G L s p i rmm, sinv G L s -> q_run s p = Some (i, rmm) -> exists x, q_rec s i = Some x /\ act G L s p i x /\ v_cptr (q_cpu s p) = r_cptr x /\
  mid G L (stop p rmm x s) p i /\ act G L (stop p rmm x s) p i x.
Proof.
  intros G L s p i rmm I R. pose proof I as (I1 & I2). pose proof (I1 p) as C. unfold cpu_ok in C. rewrite R in C. destruct C as (NO & -> & x & A & CP).
  pose proof A as (A1 & A2 & _). exists x. split; [exact A1|]. split; [exact A|]. split; [exact CP|].
  destruct (I2 i x A1) as (RO & _).
  assert (O : others G L s p i).
  { apply sinv_others; [exact I| |]; [intros j r' E; rewrite R in E; congruence|]. intros y q E1 E2. congruence. }
  unfold stop. set (s1 := if CPTR_INIT =? r_cptr x then s else with_cpu p (set_cptr CPTR_INIT (q_cpu s p)) s).
  assert (S1 : q_cpu s1 p = set_cptr CPTR_INIT (q_cpu s p) /\ q_saved s1 = q_saved s /\ q_ns s1 = q_ns s /\ q_rec s1 = q_rec s /\ q_run s1 = q_run s /\
    (forall q, q <> p -> q_cpu s1 q = q_cpu s q)).
  { unfold s1. destruct (N.eqb_spec CPTR_INIT (r_cptr x)) as [E|]; [|ups; repeat split; intros q Q; rewrite (proj2 (N.eqb_neq _ _) Q); reflexivity].
    repeat split. rewrite E, <- CP. destruct (q_cpu s p). reflexivity. }
  destruct S1 as (S1 & S2 & S3 & S4 & S5 & S6). clearbody s1.
  assert (F : frame p i s s1) by (split; [intros q Q; rewrite S2, S3, S5, S6; auto|intros j J; rewrite S4; reflexivity]).
  assert (A' : act G L s1 p i x) by (unfold act; rewrite S1, S2, S3, S4; exact A).
  split; [|exact A']. split; [eapply others_frame; [exact O|exact F|auto|auto]|]. rewrite S3, S1. split; [exact NO|]. split; [reflexivity|]. eauto.
Qed.

Lemma handle_ok : forall G L s p i k x, mid G L s p i -> act G L s p i x ->
  (k = AFpu \/ k = ASve /\ sve_en (r_cfg x) = true -> r_active x <> Some (PRec i)) ->
  exists s', handle_simd h p i k s = SOk s' /\ mid G L s' p i /\ q_run s' = q_run s.
Proof using W.
  intros G L s p i k x M A NB. unfold handle_simd. destruct M as (O & NO & CP & x' & A' & RO). pose proof A as (A1 & _). pose proof A' as (A1' & _).
  assert (x' = x) by congruence. subst x'. clear A' A1'. rewrite A1.
  set (inj := match k with AFpu => false | ASve => negb (sve_en (r_cfg x)) | ASme => negb (sve_en (r_cfg x)) || active_is (r_active x) (PRec i) end).
  destruct inj eqn:J.
  { exists s. split; [reflexivity|]. split; [|reflexivity]. split; [exact O|]. split; [exact NO|]. split; [exact CP|]. eauto. }
  pose proof A as (_ & A2 & A3 & A4 & A5).
  destruct A5 as [(B1 & B2 & B3 & B4 & B5 & w & B6 & B7)|(B1 & _)].
  2:{ exfalso. unfold inj in J. destruct k.
      - apply NB; auto.
      - apply NB; [|exact B1]. right. split; [reflexivity|]. apply negb_false_iff in J. exact J.
      - apply orb_false_iff in J. destruct J as [_ J]. rewrite B1 in J. cbn in J. rewrite N.eqb_refl in J. discriminate. }
  rewrite B1. cbn [active_is ptr_eqb negb must sbind]. unfold simd_switch. cbn [must sbind].
  destruct (save_ns_state h W s p A3 NO B2) as (c & r & E1 & NO' & HI & PK & CR). rewrite E1. cbn [sbind]. clear E1.
  set (s1 := with_saved p true _).
  assert (ST : streaming h r = false) by (destruct PK as (_ & _ & _ & _ & _ & _ & PK); exact PK).
  destruct (restore_rec_state h W s1 p i x w) as (r2 & E2 & RS & ST2 & PK2).
  { unfold s1. ups. reflexivity. }
  { exact A1. }
  { exact RO. }
  { exact B3. }
  { unfold s1. ups. exact ST. }
  { exact B6. }
  rewrite E2. cbn [sbind]. clear E2. unfold s1 in *. ups. eexists. split; [reflexivity|]. split; [|reflexivity].
  match goal with |- mid _ _ ?t _ _ => set (s' := t) end.
  assert (F : frame p i s s') by (unfold s'; fr).
  split; [eapply others_frame; [exact O|exact F|auto|auto]|].
  split; [unfold s'; ups; exact NO'|]. split; [unfold s'; ups; exact CP|].
  exists (set_rcptr (cptr_enable (r_cfg x) (r_cptr x)) (set_active (Some (PRec i)) (new_ctx x (set_saved false (r_ctx x))))).
  split; [|ups; destruct RO; constructor; assumption].
  split; [unfold s'; ups; reflexivity|]. ups. split; [exact A2|]. split; [unfold s'; ups; reflexivity|].
  split; [intros V; unfold s'; ups; cbn [x_hint set_saved]; rewrite HI; auto|]. right.
  split; [reflexivity|]. split; [unfold s'; ups; reflexivity|]. split; [reflexivity|]. split; [rewrite B4; reflexivity|].
  unfold s'. ups. split; [exact ST2|]. split.
  + exists (q_cpu s p). split; [exact B5|]. exact (PK2 _ _ PK).
  + eapply realm_trans; [exact B7|exact RS].
Qed.

(** The RMM computes with SIMD registers *)
Lemma around_ns : forall s p n hint r0, q_saved s p = false -> ns_ok h (q_ns s p) -> x_saved (q_ns s p) = false ->
  (hw_sve h = true -> x_hint (q_ns s p) = hint) -> host_same h hint r0 (q_cpu s p) ->
  exists s', around_fpu h p (PNs p) (Some n) s = SOk s' /\ q_rec s' = q_rec s /\ q_run s' = q_run s /\
    (forall q, q <> p -> q_cpu s' q = q_cpu s q /\ q_saved s' q = q_saved s q /\ q_ns s' q = q_ns s q) /\
    q_saved s' p = false /\ ns_ok h (q_ns s' p) /\ x_saved (q_ns s' p) = false /\ (hw_sve h = true -> x_hint (q_ns s' p) = hint) /\
    host_same h hint r0 (q_cpu s' p) /\ v_cptr (q_cpu s' p) = v_cptr (q_cpu s p).
Proof using W.
  intros s p n hint r0 S O N HI HS. unfold around_fpu, simd_switch. cbn [must sbind].
  destruct (save_ns_state h W s p S O N) as (c & r & E1 & NO & HC & PK & CR). rewrite E1. cbn [sbind]. clear E1. unfold rmm_use. ups.
  match goal with |- context [switch_restore h p (PNs p) ?t] => set (s1 := t) end.
  destruct (restore_ns_state h W s1 p (q_cpu s p) hint) as (r2 & E2 & HS2).
  { unfold s1. ups. reflexivity. }
  { unfold s1. ups. exact NO. }
  { unfold s1. ups. reflexivity. }
  { unfold s1. ups. apply parked_vec; [discriminate|exact PK]. }
  { unfold s1. ups. cbn [x_hint set_saved]. intros V. rewrite HC. auto. }
  rewrite E2. cbn [sbind]. clear E2. eexists. split; [reflexivity|]. unfold s1. ups.
  split; [reflexivity|]. split; [reflexivity|]. split; [intros q Q; rewrite ?(proj2 (N.eqb_neq _ _) Q); auto|]. split; [reflexivity|].
  split; [destruct NO; constructor; assumption|]. split; [reflexivity|]. cbn [x_hint set_saved]. split; [intros V; rewrite HC; auto|].
  split; [eapply host_trans; [exact HS|exact HS2]|]. reflexivity.
Qed.

Lemma around_ok : forall G L s p i x a f, mid G L s p i -> act G L s p i x -> r_active x = Some a ->
  exists s', around_fpu h p a f s = SOk s' /\ mid G L s' p i /\ q_run s' = q_run s.
Proof using W.
  intros G L s p i x a f M A RA. destruct f as [n|].
  2:{ exists s. cbn. auto. }
  destruct M as (O & NO & CP & x' & A' & RO). pose proof A as (A1 & _). pose proof A' as (A1' & _).
  assert (x' = x) by congruence. subst x'. clear A' A1'. pose proof A as (_ & A2 & A3 & A4 & A5).
  destruct A5 as [(B1 & B2 & B3 & B4 & B5 & w & B6 & B7)|(B1 & B2 & B3 & B4 & B5 & (w & B6 & B7) & B8)]; rewrite B1 in RA; injection RA as <-.
  - destruct (around_ns s p n _ _ A3 NO B2 A4 B5) as (s' & E & E1 & E2 & E3 & E4 & E5 & E6 & E7 & E8 & E9). exists s'. split; [exact E|]. split; [|exact E2].
    split; [eapply others_frame; [exact O| |auto|auto]|].
    { split; [intros q Q; rewrite E2; destruct (E3 q Q) as (? & ? & ?); auto|intros j J; rewrite E1; reflexivity]. }
    split; [exact E5|]. split; [congruence|]. exists x. split; [|exact RO]. unfold act. rewrite E1.
    split; [exact A1|]. split; [exact A2|]. split; [exact E4|]. split; [exact E7|]. left. eauto 10.
  - unfold around_fpu, simd_switch. cbn [must sbind].
    destruct (save_rec_state h W s p i x A3 A1 RO B3 B5) as (c & r & E1 & RO' & HO & ST & PK). rewrite E1. cbn [sbind]. clear E1. unfold rmm_use. ups.
    match goal with |- context [switch_restore h p (PRec i) ?t] => set (s1 := t) end.
    destruct (restore_rec_state h W s1 p i (new_ctx x (set_saved true c)) (q_cpu s p)) as (r2 & E2 & RS & ST2 & PK2).
    { unfold s1. ups. reflexivity. }
    { unfold s1. ups. reflexivity. }
    { exact RO'. }
    { reflexivity. }
    { unfold s1. ups. exact ST. }
    { exact HO. }
    rewrite E2. cbn [sbind]. clear E2. eexists. split; [reflexivity|]. split; [|reflexivity]. unfold s1 in *. clear s1. ups.
    match goal with |- mid _ _ ?t _ _ => set (s' := t) end.
    assert (F : frame p i s s') by (unfold s'; fr).
    split; [eapply others_frame; [exact O|exact F|auto|auto]|].
    split; [unfold s'; ups; exact NO|]. split; [unfold s'; ups; exact CP|].
    exists (new_ctx x (set_saved false (set_saved true c))). split; [|ups; destruct RO'; constructor; assumption].
    split; [unfold s'; ups; reflexivity|]. ups. split; [exact A2|]. split; [unfold s'; ups; reflexivity|]. split; [exact A4|]. right.
    split; [exact B1|]. split; [exact B2|]. split; [reflexivity|]. split; [exact B4|]. unfold s'. ups.
    split; [exact ST2|]. split.
    + exists w. split; [exact B6|]. exact (PK2 _ _ (parked_vec _ _ _ _ false n ltac:(discriminate) (PK _ _ B7))).
    + eapply realm_trans; [exact B8|exact RS].
Qed.

Lemma holds_zero : forall c, x_sme c = false -> x_fpsr c = 0 -> x_fpcr c = 0 -> x_zcr1 c = 0 -> (forall k, x_mem c k = 0) -> holds h c zeros.
Proof.
  intros c D A B C M. unfold holds. rewrite A, B, C, D. cbn [v_fpsr v_fpcr v_zcr1 v_svcr zeros].
  split; [reflexivity|]. split; [reflexivity|]. split; [reflexivity|]. split; [discriminate|].
  unfold mode_streaming. rewrite D. cbn [andb]. destruct (_ || _); [|intros; apply M]. unfold sve_mem. repeat split; intros; rewrite ?M; reflexivity.
Qed.

(** ** Events *)

Definition ghost_g (s s' : sstate) (o : sop) (G : N -> bool * regs) : N -> bool * regs :=
  match o with
  | OHostUse p _ => upd G p (false, q_cpu s' p)
  | OHostSmc p b _ | OHostEnter p _ b _ => upd G p (b, q_cpu s p)
  | _ => G
  end.
Definition ghost_l (s s' : sstate) (o : sop) (L : N -> regs) : N -> regs :=
  match o with
  | ORealmUse p k _ _ => match q_run s p with Some (i, _) => if traps h k (q_cpu s p) then L else upd L i (q_cpu s' p) | None => L end
  | OCreate i _ _ => upd L i zeros
  | _ => L
  end.

Lemma hint_ok : forall s p b, q_saved s p = false -> ns_ok h (q_ns s p) -> x_saved (q_ns s p) = false ->
  exists c, smc_begin p b s = SOk (if hw_sve h then with_ns p c s else s) /\ (hw_sve h = true -> c = set_hint b (q_ns s p)).
Proof.
  intros s p b S O N. unfold smc_begin, update_hint. rewrite S, (no_init _ _ O), (no_sve _ _ O), N. cbn [must negb sbind].
  destruct (hw_sve h); [eauto|exists zero_ctx; split; [reflexivity|discriminate]].
Qed.

Lemma sstep_ok : forall G L s o r, sinv G L s -> sstep h s o = Some r ->
  exists s', r = SOk s' /\ sinv (ghost_g s s' o G) (ghost_l s s' o L) s'.
Proof using W.
  intros G L s o r I E. pose proof I as (I1 & I2). destruct o as [p n|p b f|p i b pend|p k n pend|p f st pend|p|i sve vq|i]; cbn [sstep] in E.
  - (* the host computes *)
    destruct (q_run s p) eqn:R; [discriminate|]. injection E as <-. eexists. split; [reflexivity|]. cbn [ghost_g ghost_l].
    pose proof (I1 p) as C. unfold cpu_ok in C. rewrite R in C. destruct C as (NO & C1 & C2 & C3 & C4).
    match goal with |- sinv ?g _ ?t => set (G' := g); set (s' := t) end. split.
    + intros q. destruct (N.eq_dec q p) as [->|Q].
      * unfold cpu_ok, s', G'. ups. rewrite R. split; [exact NO|]. split; [exact C1|]. split; [exact C2|]. split; [exact C3|apply host_refl].
      * specialize (I1 q). unfold cpu_ok, act, s', G' in *. ups. rewrite (proj2 (N.eqb_neq _ _) Q). exact I1.
    + intros j. exact (I2 j).
  - (* a command *)
    destruct (q_run s p) eqn:R; [discriminate|]. injection E as <-.
    pose proof (I1 p) as C. unfold cpu_ok in C. rewrite R in C. destruct C as (NO & C1 & C2 & C3 & C4).
    destruct (hint_ok s p b C1 NO C2) as (c & E1 & EC). rewrite E1. cbn [sbind]. clear E1.
    set (s1 := if hw_sve h then with_ns p c s else s).
    assert (K : q_cpu s1 = q_cpu s /\ q_saved s1 = q_saved s /\ q_rec s1 = q_rec s /\ q_run s1 = q_run s /\ (forall q, q <> p -> q_ns s1 q = q_ns s q) /\
      ns_ok h (q_ns s1 p) /\ x_saved (q_ns s1 p) = false /\ (hw_sve h = true -> x_hint (q_ns s1 p) = b)).
    { unfold s1. destruct (hw_sve h) eqn:V; [|repeat split; auto; try (destruct NO; assumption); discriminate].
      rewrite (EC eq_refl). ups. repeat split; auto; try (destruct NO; assumption).
      intros q Q. rewrite (proj2 (N.eqb_neq _ _) Q). reflexivity. }
    destruct K as (K1 & K2 & K3 & K4 & K5 & K6 & K7 & K8). clearbody s1.
    assert (exists s2, around_fpu h p (PNs p) f s1 = SOk s2 /\ q_rec s2 = q_rec s /\ q_run s2 = q_run s /\
      (forall q, q <> p -> q_cpu s2 q = q_cpu s q /\ q_saved s2 q = q_saved s q /\ q_ns s2 q = q_ns s q) /\
      q_saved s2 p = false /\ ns_ok h (q_ns s2 p) /\ x_saved (q_ns s2 p) = false /\ host_same h b (q_cpu s p) (q_cpu s2 p) /\ v_cptr (q_cpu s2 p) = CPTR_INIT) as
      (s2 & E2 & X1 & X2 & X3 & X4 & X5 & X6 & X7 & X8).
    { destruct f as [n|].
      - destruct (around_ns s1 p n b (q_cpu s p)) as (s2 & E & Y1 & Y2 & Y3 & Y4 & Y5 & Y6 & Y7 & Y8 & Y9).
        { rewrite K2. exact C1. }
        { exact K6. }
        { exact K7. }
        { exact K8. }
        { rewrite K1. apply host_refl. }
        exists s2. rewrite K1, K2, K3, K4 in *. split; [exact E|]. split; [exact Y1|]. split; [exact Y2|].
        split; [intros q Q; destruct (Y3 q Q) as (? & ? & ?); rewrite K5 in * by assumption; auto|].
        split; [exact Y4|]. split; [exact Y5|]. split; [exact Y6|]. split; [exact Y8|]. congruence.
      - exists s1. cbn. rewrite K1, K2. split; [reflexivity|]. split; [exact K3|]. split; [exact K4|]. split; [auto|]. split; [exact C1|]. split; [exact K6|]. split; [exact K7|]. split; [apply host_refl|exact C3]. }
    rewrite E2. cbn [sbind]. unfold smc_end. rewrite X4. cbn [must negb sbind]. eexists. split; [reflexivity|]. cbn [ghost_g ghost_l]. split.
    + intros q. destruct (N.eq_dec q p) as [->|Q].
      * unfold cpu_ok. rewrite X2, R. unfold upd. rewrite N.eqb_refl. cbn [fst snd]. auto.
      * specialize (I1 q). destruct (X3 q Q) as (Z1 & Z2 & Z3). unfold cpu_ok, act, upd in *. rewrite (proj2 (N.eqb_neq _ _) Q), X1, X2, Z1, Z2, Z3. exact I1.
    + intros j x. rewrite X1. unfold recs_ok in I2. rewrite X2. exact (I2 j x).
  - (* entering a REC *)
    destruct (q_run s p) eqn:R; [discriminate|]. destruct (q_rec s i) as [x|] eqn:X; [|discriminate]. destruct (r_on x) eqn:RN; [discriminate|]. injection E as <-.
    pose proof (I1 p) as C. unfold cpu_ok in C. rewrite R in C. destruct C as (NO & C1 & C2 & C3 & C4).
    pose proof (I2 i x X) as (RO & D). rewrite RN in D. destruct D as (D1 & D2 & D3 & D4).
    assert (O : others G L s p i).
    { apply sinv_others; [exact I| |]; [intros j rr; rewrite R; discriminate|]. intros y q E1 E2. congruence. }
    destruct (hint_ok s p b C1 NO C2) as (c & E1 & EC). rewrite E1. cbn [sbind]. clear E1.
    set (s1 := if hw_sve h then with_ns p c s else s).
    assert (K : q_cpu s1 = q_cpu s /\ q_saved s1 = q_saved s /\ q_rec s1 = q_rec s /\ q_run s1 = q_run s /\ (forall q, q <> p -> q_ns s1 q = q_ns s q) /\
      ns_ok h (q_ns s1 p) /\ x_saved (q_ns s1 p) = false /\ (hw_sve h = true -> x_hint (q_ns s1 p) = b)).
    { unfold s1. destruct (hw_sve h) eqn:V; [|repeat split; auto; try (destruct NO; assumption); discriminate].
      rewrite (EC eq_refl). ups. repeat split; auto; try (destruct NO; assumption).
      intros q Q. rewrite (proj2 (N.eqb_neq _ _) Q). reflexivity. }
    destruct K as (K1 & K2 & K3 & K4 & K5 & K6 & K7 & K8). clearbody s1.
    rewrite D1. cbn [must sbind].
    set (s2 := with_rec i (Some (set_on (Some p) (set_active (Some (PNs p)) x))) s1).
    assert (F : frame p i s s2).
    { split; [intros q Q; unfold s2; ups; rewrite K1, K2, K4, K5 by assumption; auto|intros j J; unfold s2; ups; rewrite (proj2 (N.eqb_neq _ _) J), K3; reflexivity]. }
    assert (M : mid (upd G p (b, q_cpu s p)) L s2 p i).
    { split; [eapply others_frame; [exact O|exact F| |auto]; intros q Q; unfold upd; rewrite (proj2 (N.eqb_neq _ _) Q); reflexivity|].
      unfold s2, act. ups. rewrite K1. split; [exact K6|]. split; [exact C3|]. exists (set_on (Some p) (set_active (Some (PNs p)) x)). split; [|exact RO]. split; [reflexivity|]. ups. rewrite K2.
      split; [reflexivity|]. split; [exact C1|]. split; [exact K8|]. left. split; [reflexivity|]. split; [exact K7|]. split; [exact D2|]. split; [exact D3|].
      split; [apply host_refl|exact D4]. }
    destruct (round_ok _ _ _ _ _ pend M) as (s' & E2 & J & _). exists s'. split; [exact E2|]. cbn [ghost_g ghost_l]. exact J.
  - (* the realm executes a SIMD instruction *)
    destruct (q_run s p) as [[i rmm]|] eqn:R; [|discriminate].
    destruct (stop_ok _ _ _ _ _ _ I R) as (x & X & A & CP & M & A').
    rewrite X in E. cbn [ghost_g ghost_l]. rewrite R. destruct (traps h k (q_cpu s p)) eqn:T; injection E as <-.
    + destruct (handle_ok G L (stop p rmm x s) p i k x M A') as (s1 & E1 & M1 & _).
      { intros KK B. pose proof A as (_ & _ & _ & _ & [(Y & _)|(_ & _ & _ & Y & _)]); [rewrite Y in B; discriminate|].
        destruct (enable_flags (r_cfg x)) as (F1 & F2 & _). rewrite <- Y, <- CP in F1, F2.
        destruct KK as [->|(-> & SV)]; cbn [traps] in T; [rewrite F1 in T|rewrite F2, SV in T]; discriminate. }
      rewrite E1. cbn [sbind]. destruct (round_ok _ _ _ _ _ pend M1) as (s' & E2 & J & _). eauto.
    + eexists. split; [reflexivity|]. ups.
      pose proof A as (_ & A2 & A3 & A4 & [(_ & _ & _ & B4 & _)|(B1 & B2 & B3 & B4 & B5 & (w & B6 & B7) & B8)]).
      { exfalso. rewrite B4 in CP. unfold traps in T. rewrite CP in T. destruct k; discriminate. }
      pose proof (I1 p) as C. unfold cpu_ok in C. rewrite R in C. destruct C as (NO & RM & _).
      destruct (I2 i x X) as (RO & _).
      assert (O : others G L s p i).
      { apply sinv_others; [exact I| |]; [intros j r' EE; rewrite R in EE; congruence|]. intros y q E1 E2. congruence. }
      match goal with |- sinv _ ?l ?t => set (L' := l); set (s' := t) end.
      assert (F : frame p i s s') by (unfold s'; fr).
      assert (O' : others G L' s' p i) by (eapply others_frame; [exact O|exact F|auto|intros j J; unfold L'; rewrite (proj2 (N.eqb_neq _ _) J); reflexivity]).
      split.
      * intros q. destruct (N.eq_dec q p) as [->|Q]; [|apply O'; exact Q]. unfold cpu_ok, act, s', L'. ups. rewrite R. split; [exact NO|]. split; [exact RM|].
        exists x. split; [|exact CP]. split; [exact X|]. split; [exact A2|]. split; [exact A3|]. split; [exact A4|]. right.
        split; [exact B1|]. split; [exact B2|]. split; [exact B3|]. split; [exact B4|]. split; [exact B5|]. split; [|rewrite N.eqb_refl; apply realm_refl].
        exists w. split; [exact B6|]. apply parked_vec; [apply (ro_hw _ _ _ RO)|exact B7].
      * intros j. destruct (N.eq_dec j i) as [->|J]; [|apply O'; exact J]. intros y Hy. unfold s' in *. ups. rewrite X in Hy. injection Hy as <-.
        split; [exact RO|]. rewrite A2. eauto.
  - (* a call of the realm *)
    destruct (q_run s p) as [[i rmm]|] eqn:R; [|discriminate].
    destruct (stop_ok _ _ _ _ _ _ I R) as (x & X & A & CP & M & A').
    rewrite X in E. cbn [ghost_g ghost_l].
    assert (exists a, r_active x = Some a) as (a & RA) by (pose proof A as (_ & _ & _ & _ & [(Y & _)|(Y & _)]); eauto).
    rewrite RA in E. injection E as <-. destruct (around_ok _ _ _ _ _ _ _ f M A' RA) as (s1 & E1 & M1 & _). rewrite E1. cbn [sbind]. destruct st.
    + destruct (round_ok _ _ _ _ _ pend M1) as (s' & E2 & J & _). eauto.
    + destruct (leave_ok _ _ _ _ _ M1) as (s' & E2 & J & _). eauto.
  - (* another exit *)
    destruct (q_run s p) as [[i rmm]|] eqn:R; [|discriminate].
    destruct (stop_ok _ _ _ _ _ _ I R) as (x & X & A & CP & M & A').
    rewrite X in E. cbn [ghost_g ghost_l]. injection E as <-. destruct (leave_ok _ _ _ _ _ M) as (s' & E2 & J & _). eauto.
  - (* REC_CREATE *)
    destruct (q_rec s i) as [y|] eqn:X; [discriminate|]. destruct (sve && (negb (sve_en (cpu_config h)) || (sve_vq (cpu_config h) <? vq))) eqn:Q; [discriminate|].
    set (g := mkCfg sve (if sve then vq else 0) false) in *.
    assert (V : validate_config (cpu_config h) g = true).
    { unfold validate_config, g. cbn [sve_en sve_vq sme_en andb negb]. rewrite andb_true_r. destruct sve; [|reflexivity]. cbn [andb] in Q. rewrite Q. reflexivity. }
    unfold context_init in E. cbn [x_init zero_ctx] in E. rewrite V in E. cbn [negb] in E. injection E as <-. eexists. split; [reflexivity|]. cbn [ghost_g ghost_l].
    assert (O' : forall q r', q_run s q <> Some (i, r')).
    { intros q r' EE. pose proof (I1 q) as C. unfold cpu_ok in C. rewrite EE in C. destruct C as (_ & _ & y & (Y & _) & _). congruence. }
    match goal with |- sinv _ ?l ?t => set (L' := l); set (s' := t) end. split.
    + intros q. specialize (I1 q). unfold cpu_ok in *. unfold s'. ups. destruct (q_run s q) as [[j r']|] eqn:RR; [|exact I1].
      assert (J : j <> i) by (intros ->; exact (O' _ _ RR)). unfold act, L' in *. ups. rewrite (proj2 (N.eqb_neq _ _) J). exact I1.
    + intros j y Hy. destruct (N.eq_dec j i) as [->|J].
      * unfold s', L' in *. ups. injection Hy as <-. ups. split.
        -- constructor; unfold g; cbn; try reflexivity.
           ++ destruct sve; reflexivity.
           ++ destruct sve; [|discriminate]. intros _. cbn [andb] in Q. apply orb_false_iff in Q. destruct Q as (Q1 & Q2). apply negb_false_iff in Q1. cbn in Q1.
              apply N.ltb_ge in Q2. rewrite config_vq in Q2 by exact Q1. split; [|exact Q2]. apply land15. etransitivity; [exact Q2|apply W].
           ++ destruct sve; [|discriminate]. intros _. cbn [andb] in Q. apply orb_false_iff in Q. destruct Q as (Q1 & Q2). apply negb_false_iff in Q1. exact Q1.
        -- split; [reflexivity|]. split; [reflexivity|]. split; [reflexivity|]. exists zeros. split; [|apply realm_refl].
           apply holds_zero; reflexivity.
      * unfold s', L' in *. ups. rewrite (proj2 (N.eqb_neq _ _) J) in *. exact (I2 j y Hy).
  - (* REC_DESTROY *)
    destruct (q_rec s i) as [x|] eqn:X; [|discriminate]. destruct (r_on x) eqn:RN; [discriminate|]. injection E as <-. eexists. split; [reflexivity|]. cbn [ghost_g ghost_l].
    assert (O' : forall q r', q_run s q <> Some (i, r')).
    { intros q r' EE. pose proof (I1 q) as C. unfold cpu_ok in C. rewrite EE in C. destruct C as (_ & _ & y & (Y1 & Y2 & _) & _). congruence. }
    match goal with |- sinv _ _ ?t => set (s' := t) end. split.
    + intros q. specialize (I1 q). unfold cpu_ok in *. unfold s'. ups. destruct (q_run s q) as [[j r']|] eqn:RR; [|exact I1].
      assert (J : j <> i) by (intros ->; exact (O' _ _ RR)). unfold act in *. ups. rewrite (proj2 (N.eqb_neq _ _) J). exact I1.
    + intros j y Hy. destruct (N.eq_dec j i) as [->|J]; unfold s' in *; ups; [discriminate|]. rewrite (proj2 (N.eqb_neq _ _) J) in *. exact (I2 j y Hy).
Qed.
End INV.

(** ** What an event touches *)

Definition foot (p : N) (s s' : sstate) : Prop :=
  (forall q, q <> p -> q_cpu s' q = q_cpu s q /\ q_run s' q = q_run s q) /\ (forall i, q_rec s i = None -> q_rec s' i = None).
Lemma foot_refl : forall p s, foot p s s. Proof. intros; split; auto. Qed.
Lemma foot_trans : forall p a b c, foot p a b -> foot p b c -> foot p a c.
Proof.
  intros p a b c (A1 & A2) (B1 & B2). split; [|auto]. intros q Q. destruct (A1 q Q), (B1 q Q). split; congruence.
Qed.
Lemma sbind_ok : forall A B (a : sres A) (f : A -> sres B) r, sbind a f = SOk r -> exists x, a = SOk x /\ f x = SOk r.
Proof. intros A B [x|] f r E; [eauto|discriminate]. Qed.
Ltac sb E := let x := fresh "v" in let E1 := fresh "E" in apply sbind_ok in E; destruct E as (x & E1 & E).

Lemma foot_cpu : forall p r s, foot p s (with_cpu p r s).
Proof. intros p r s. split; [|auto]. intros q Q. cbn. unfold upd. rewrite (proj2 (N.eqb_neq _ _) Q). auto. Qed.
Lemma foot_run : forall p x s, foot p s (with_run p x s).
Proof. intros p r s. split; [|auto]. intros q Q. cbn. unfold upd. rewrite (proj2 (N.eqb_neq _ _) Q). auto. Qed.
Lemma foot_saved : forall p x q s, foot p s (with_saved q x s). Proof. intros; split; auto. Qed.
Lemma foot_ns : forall p x q s, foot p s (with_ns q x s). Proof. intros; split; auto. Qed.
Lemma foot_rec : forall p i x y s, q_rec s i = Some x -> foot p s (with_rec i (Some y) s).
Proof. intros p i x y s E. split; [auto|]. intros j J. cbn. unfold upd. destruct (N.eqb_spec j i) as [->|]; [congruence|exact J]. Qed.
Lemma foot_assign : forall p a c s, foot p s (assign a c s).
Proof. intros p [q|i] c s; cbn [assign]; [apply foot_ns|]. destruct (q_rec s i) eqn:E; [eapply foot_rec; exact E|apply foot_refl]. Qed.

Lemma foot_save : forall h p a s s', switch_save h p a s = SOk s' -> foot p s s'.
Proof.
  intros h p a s s' E. unfold switch_save in E. destruct (deref s a); [|discriminate]. sb E. sb E. sb E. sb E. sb E. destruct v3 as [c2 r2]. injection E as <-.
  eapply foot_trans; [apply foot_cpu|]. eapply foot_trans; [apply foot_assign|apply foot_saved].
Qed.
Lemma foot_restore : forall h p a s s', switch_restore h p a s = SOk s' -> foot p s s'.
Proof.
  intros h p a s s' E. unfold switch_restore in E. destruct (deref s a); [|discriminate]. sb E. sb E. sb E. sb E. sb E. injection E as <-.
  eapply foot_trans; [apply foot_cpu|]. eapply foot_trans; [apply foot_assign|apply foot_saved].
Qed.
Lemma foot_switch : forall h p sv rs s s' a, simd_switch h p sv rs s = SOk (s', a) -> foot p s s'.
Proof.
  intros h p sv rs s s' a E. unfold simd_switch in E. sb E. sb E. sb E. injection E as <- <-.
  eapply foot_trans; [|eapply foot_trans; [|apply foot_cpu]].
  - destruct sv; [eapply foot_save; eassumption|injection E1 as <-; apply foot_refl].
  - destruct rs; [eapply foot_restore; eassumption|injection E2 as <-; apply foot_refl].
Qed.
Lemma foot_begin : forall p b s s', smc_begin p b s = SOk s' -> foot p s s'.
Proof.
  intros p b s s' E. unfold smc_begin, update_hint in E. sb E. sb E. destruct (x_sve _); [sb E|]; injection E as <-; [apply foot_ns|apply foot_refl].
Qed.
Lemma foot_end : forall p s s', smc_end p s = SOk s' -> foot p s s'.
Proof. intros p s s' E. unfold smc_end in E. sb E. injection E as <-. apply foot_refl. Qed.
Lemma foot_around : forall h p a f s s', around_fpu h p a f s = SOk s' -> foot p s s'.
Proof.
  intros h p a [n|] s s' E; cbn [around_fpu] in E; [|injection E as <-; apply foot_refl].
  sb E. destruct v as [s1 ?]. sb E. sb E. destruct v0 as [s3 ?]. injection E as <-.
  eapply foot_trans; [eapply foot_switch; eassumption|]. eapply foot_trans; [|eapply foot_switch; eassumption].
  unfold rmm_use in E1. sb E1. injection E1 as <-. apply foot_cpu.
Qed.
Lemma foot_leave : forall h p i s s', leave h p i s = SOk s' -> foot p s s'.
Proof.
  intros h p i s s' E. unfold leave in E. destruct (q_rec s i) as [x|] eqn:X; [|discriminate]. sb E. destruct (q_rec v i) as [x1|] eqn:X1; [|discriminate]. sb E. injection E as <-.
  eapply foot_trans; [|eapply foot_trans; [|apply foot_run]].
  - destruct (active_is _ _); [|injection E0 as <-; apply foot_refl]. sb E0. destruct v1 as [s1 ?]. destruct (q_rec s1 i) eqn:Y; [|discriminate]. injection E0 as <-.
    eapply foot_trans; [eapply foot_switch; eassumption|]. eapply foot_rec; eassumption.
  - eapply foot_trans; [eapply foot_rec; exact X1|]. eapply foot_end. eassumption.
Qed.
Lemma foot_round : forall h p i b s s', round h p i b s = SOk s' -> foot p s s'.
Proof.
  intros h p i [] s s' E; cbn [round] in E; [eapply foot_leave; exact E|]. destruct (q_rec s i); [|discriminate]. injection E as <-.
  eapply foot_trans; [|apply foot_run]. destruct (_ =? _); [apply foot_refl|apply foot_cpu].
Qed.
Lemma foot_stop : forall p rmm x s, foot p s (stop p rmm x s).
Proof. intros. unfold stop. destruct (_ =? _); [apply foot_refl|apply foot_cpu]. Qed.
Lemma foot_handle : forall h p i k s s', handle_simd h p i k s = SOk s' -> foot p s s'.
Proof.
  intros h p i k s s' E. unfold handle_simd in E. destruct (q_rec s i) as [x|]; [|discriminate].
  destruct (match k with AFpu => false | _ => _ end); [injection E as <-; apply foot_refl|]. sb E. sb E. destruct v0 as [s1 a]. destruct (q_rec s1 i) eqn:Y; [|discriminate]. injection E as <-.
  eapply foot_trans; [eapply foot_switch; eassumption|]. eapply foot_rec; eassumption.
Qed.

Lemma foot_step : forall h s o s', sstep h s o = Some (SOk s') ->
  (forall p, on_cpu o <> Some p -> q_cpu s' p = q_cpu s p /\ q_run s' p = q_run s p) /\
  (forall i, q_rec s i = None -> q_rec s' i <> None -> exists sve vq, o = OCreate i sve vq).
Proof.
  intros h s o s' E.
  assert (K : (exists p, on_cpu o = Some p /\ foot p s s') \/ (exists i sve vq, o = OCreate i sve vq /\ exists y, s' = with_rec i y s) \/ (exists i, s' = with_rec i None s)).
  { destruct o as [p n|p b f|p i b pend|p k n pend|p f st pend|p|i sve vq|i]; cbn [sstep] in E.
    - left. exists p. split; [reflexivity|]. destruct (q_run s p); [discriminate|]. injection E as <-. apply foot_cpu.
    - left. exists p. split; [reflexivity|]. destruct (q_run s p); [discriminate|]. injection E as E. sb E. sb E.
      eapply foot_trans; [eapply foot_begin; eassumption|]. eapply foot_trans; [eapply foot_around; eassumption|eapply foot_end; eassumption].
    - left. exists p. split; [reflexivity|]. destruct (q_run s p); [discriminate|]. destruct (q_rec s i) eqn:X; [|discriminate]. destruct (r_on _); [discriminate|]. injection E as E. sb E. sb E.
      eapply foot_trans; [eapply foot_begin; eassumption|]. eapply foot_trans; [|eapply foot_round; eassumption].
      assert (exists y, q_rec v i = Some y) as (y & Y).
      { unfold smc_begin, update_hint in E0. sb E0. sb E0. destruct (x_sve _); [sb E0|]; injection E0 as <-; eauto. }
      eapply foot_rec. exact Y.
    - left. exists p. split; [reflexivity|]. destruct (q_run s p) as [[i rmm]|]; [|discriminate]. destruct (q_rec s i) eqn:X; [|discriminate].
      destruct (traps _ _ _); injection E as E; [|subst s'; apply foot_cpu]. sb E.
      eapply foot_trans; [apply foot_stop|]. eapply foot_trans; [eapply foot_handle; eassumption|eapply foot_round; eassumption].
    - left. exists p. split; [reflexivity|]. destruct (q_run s p) as [[i rmm]|]; [|discriminate]. destruct (q_rec s i) eqn:X; [|discriminate].
      destruct (r_active _); [|discriminate]. injection E as E. sb E.
      eapply foot_trans; [apply foot_stop|]. eapply foot_trans; [eapply foot_around; eassumption|]. destruct st; [eapply foot_round; eassumption|eapply foot_leave; eassumption].
    - left. exists p. split; [reflexivity|]. destruct (q_run s p) as [[i rmm]|]; [|discriminate]. destruct (q_rec s i) eqn:X; [|discriminate].
      injection E as E. eapply foot_trans; [apply foot_stop|]. eapply foot_leave. exact E.
    - right. left. exists i, sve, vq. split; [reflexivity|]. destruct (q_rec s i); [discriminate|]. destruct (_ && _); [discriminate|]. destruct (context_init _ _ _ _); [|discriminate].
      injection E as <-. eauto.
    - right. right. exists i. destruct (q_rec s i); [|discriminate]. destruct (r_on _); [discriminate|]. injection E as <-. reflexivity. }
  destruct K as [(p & C & F1 & F2)|[(i & sve & vq & -> & y & ->)|(i & ->)]].
  - split; [intros q Q; apply F1; congruence|]. intros i N X. exfalso. auto.
  - split; [auto|]. intros j N X. cbn in X. unfold upd in X. destruct (N.eqb_spec j i) as [->|]; [eauto|contradiction].
  - split; [auto|]. intros j N X. cbn in X. unfold upd in X. destruct (N.eqb_spec j i) as [->|]; contradiction.
Qed.

(** ** Reachable states *)

Section REACH.
Context (h : simd_hw) (W : hw_ok h).

Lemma boot_ok : forall f, exists s, sboot h f = Some s /\ sinv h (fun p => (false, set_cptr CPTR_INIT (f p))) (fun _ => zeros) s /\ (forall p, q_cpu s p = set_cptr CPTR_INIT (f p) /\ q_run s p = None).
Proof using W.
  intros f. unfold sboot, context_init. cbn [x_init zero_ctx].
  assert (V : validate_config (cpu_config h) (cpu_config h) = true).
  { unfold validate_config. destruct (sve_en _), (sme_en _); cbn; rewrite ?N.ltb_irrefl; reflexivity. }
  rewrite V. cbn [negb option_map]. eexists. split; [reflexivity|]. split; [|intros p; split; reflexivity]. split.
  - intros p. unfold cpu_ok. cbn [q_ns q_run q_saved q_cpu fst snd]. split; [|repeat (split; [reflexivity|]); apply host_refl].
    constructor; cbn [x_owner x_init x_sve x_sme x_cptr x_zcr2 sve_en sme_en cpu_config].
    + reflexivity.
    + reflexivity.
    + destruct (hw_sve h); reflexivity.
    + destruct (hw_sme h); reflexivity.
    + reflexivity.
    + intros V'. change (N.lor 0 (N.land (sve_vq (cpu_config h)) 15)) with (N.land (sve_vq (cpu_config h)) 15). rewrite V', config_vq by exact V'. apply land15. apply W.
  - intros i x Hx. discriminate.
Qed.
Lemma sreach_inv : forall s, sreach h s -> exists G L, sinv h G L s.
Proof using W.
  intros s R. induction R as [f s E|s o s' R IH E].
  - destruct (boot_ok f) as (s' & E' & I & _). assert (s' = s) by congruence. subst s'. eauto.
  - destruct IH as (G & L & I). destruct (sstep_ok h W G L s o _ I E) as (s2 & E2 & I2). injection E2 as <-. eauto.
Qed.

Lemma no_panic : forall s o r, sreach h s -> sstep h s o = Some r -> exists s', r = SOk s'.
Proof using W. intros s o r R E. destruct (sreach_inv s R) as (G & L & I). destruct (sstep_ok h W G L s o r I E) as (s' & E' & _). eauto. Qed.

Lemma away_inv : forall p hint r0 s, away h p hint r0 s -> exists G L, sinv h G L s /\ G p = (hint, r0).
Proof using W.
  intros p hint r0 s A. induction A as [s o s' R -> C E|s o s' A IH N E].
  - destruct (sreach_inv s R) as (G & L & I). destruct (sstep_ok h W G L s o _ I E) as (s2 & E2 & I2). injection E2 as <-.
    eexists _, _. split; [exact I2|]. destruct o; cbn [host_call] in C; try contradiction; destruct C as (-> & ->); cbn [ghost_g]; unfold upd; rewrite N.eqb_refl; reflexivity.
  - destruct IH as (G & L & I & GP). destruct (sstep_ok h W G L s o _ I E) as (s2 & E2 & I2). injection E2 as <-.
    eexists _, _. split; [exact I2|].
    destruct o as [q n|q b f|q i b pend|q k n pend|q f st pend|q|i sve vq|i]; cbn [ghost_g]; try exact GP; unfold upd;
      (destruct (N.eqb_spec p q) as [<-|]; [|exact GP]); cbn [sstep] in E; destruct (q_run s p); congruence.
Qed.
Lemma away_host : forall p hint r0 s, away h p hint r0 s -> q_run s p = None -> host_same h hint r0 (q_cpu s p).
Proof using W.
  intros p hint r0 s A N. destruct (away_inv _ _ _ _ A) as (G & L & (I & _) & GP). specialize (I p). unfold cpu_ok in I. rewrite N, GP in I.
  destruct I as (_ & _ & _ & _ & I). exact I.
Qed.

Lemma sreach_last : forall i v s, last_regs h i v s -> sreach h s.
Proof. intros i v s L. induction L; eapply sreach_step; eauto. Qed.
Lemma last_inv : forall i v s, last_regs h i v s -> (exists x, q_rec s i = Some x) /\ exists G L, sinv h G L s /\ L i = v.
Proof using W.
  intros i v s LR. induction LR as [s sve vq s' R E|v s o p s' LR IH C E|v s o s' LR IH NC X E].
  - destruct (sreach_inv s R) as (G & L & I). destruct (sstep_ok h W G L s _ _ I E) as (s2 & E2 & I2). injection E2 as <-. split.
    + cbn [sstep] in E. destruct (q_rec s i); [discriminate|]. destruct (_ && _); [discriminate|]. destruct (context_init _ _ _ _); [|discriminate]. injection E as <-.
      cbn [q_rec with_rec]. unfold upd. rewrite N.eqb_refl. eauto.
    + eexists _, _. split; [exact I2|]. cbn [ghost_l]. unfold upd. rewrite N.eqb_refl. reflexivity.
  - destruct IH as ((x & Hx) & G & L & I & LI). destruct C as (k & n & b & rmm & -> & R & T).
    destruct (sstep_ok h W G L s _ _ I E) as (s2 & E2 & I2). injection E2 as <-. split.
    + cbn [sstep] in E. rewrite R, Hx, T in E. injection E as <-. exists x. exact Hx.
    + eexists _, _. split; [exact I2|]. cbn [ghost_l]. rewrite R, T. unfold upd. rewrite N.eqb_refl. reflexivity.
  - destruct IH as ((x & Hx) & G & L & I & LI). destruct (sstep_ok h W G L s _ _ I E) as (s2 & E2 & I2). injection E2 as <-.
    split; [destruct (q_rec s' i); [eauto|contradiction]|]. eexists _, _. split; [exact I2|].
    destruct o as [q n|q b f|q j b pend|q k n pend|q f st pend|q|j sve vq|j]; cbn [ghost_l]; try exact LI.
    + destruct (q_run s q) as [[j rmm]|] eqn:R; [|exact LI]. destruct (traps h k (q_cpu s q)) eqn:T; [exact LI|].
      unfold upd. destruct (N.eqb_spec i j) as [<-|]; [|exact LI]. exfalso. apply (NC q). exists k, n, pend, rmm. auto.
    + unfold upd. destruct (N.eqb_spec i j) as [<-|]; [|exact LI]. exfalso. cbn [sstep] in E. rewrite Hx in E. discriminate.
Qed.

Lemma last_realm : forall i v s p rmm x, last_regs h i v s -> q_run s p = Some (i, rmm) -> q_rec s i = Some x -> (exists k, traps h k (q_cpu s p) = false) ->
  realm_same h (r_cfg x) v (q_cpu s p).
Proof using W.
  intros i v s p rmm x LR R X (k & T). destruct (last_inv _ _ _ LR) as (_ & G & L & (I & _) & <-). specialize (I p). unfold cpu_ok in I. rewrite R in I.
  destruct I as (_ & _ & y & (A1 & _ & _ & _ & A) & CP). assert (y = x) by congruence. subst y.
  destruct A as [(_ & _ & _ & B4 & _)|(_ & _ & _ & _ & _ & _ & B8)]; [|exact B8].
  exfalso. rewrite B4 in CP. unfold traps in T. rewrite CP in T. destruct k; discriminate.
Qed.
Lemma realm_traps : forall s p i rmm x, sreach h s -> q_run s p = Some (i, rmm) -> q_rec s i = Some x ->
  traps h ASme (q_cpu s p) = true /\ (traps h ASve (q_cpu s p) = false -> sve_en (r_cfg x) = true /\ traps h AFpu (q_cpu s p) = false).
Proof using W.
  intros s p i rmm x R RN X. destruct (sreach_inv s R) as (G & L & (I & J)). specialize (I p). destruct (J i x X) as (RO & _). unfold cpu_ok in I. rewrite RN in I.
  destruct I as (_ & _ & y & (A1 & _ & _ & _ & A) & CP). assert (y = x) by congruence. subst y. unfold traps. rewrite CP.
  destruct A as [(_ & _ & _ & B4 & _)|(_ & _ & _ & B4 & _)]; rewrite B4; [split; [reflexivity|discriminate]|].
  destruct (enable_flags (r_cfg x)) as (F1 & F2 & F3). rewrite F1, F2, F3, (ro_gsme _ _ _ RO). split; [reflexivity|]. intros S. apply negb_false_iff in S. auto.
Qed.
Lemma has_last : forall s, sreach h s -> forall i, q_rec s i <> None -> exists v, last_regs h i v s.
Proof using W.
  intros s R. induction R as [f s E|s o s' R IH E]; intros i X.
  - exfalso. apply X. unfold sboot in E. destruct (context_init _ _ _ _); [|discriminate]. injection E as <-. reflexivity.
  - destruct (q_rec s i) as [x|] eqn:P.
    + destruct (IH i) as (v & LR); [congruence|].
      assert (D : (exists p, computes h s i o p) \/ forall p, ~ computes h s i o p).
      { destruct o as [q n|q b f|q j b pend|q k n pend|q f st pend|q|j sve vq|j];
          try (right; intros p' (k' & n' & b' & r' & E0 & _); discriminate).
        destruct (q_run s q) as [[j r]|] eqn:RN; [|right; intros p' (k' & n' & b' & r' & E0 & E1 & _); congruence].
        destruct (N.eq_dec j i) as [->|J]; [|right; intros p' (k' & n' & b' & r' & E0 & E1 & _); congruence].
        destruct (traps h k (q_cpu s q)) eqn:T; [right; intros p' (k' & n' & b' & r' & E0 & E1 & E2); congruence|].
        left. exists q, k, n, pend, r. auto. }
      destruct D as [(p & C)|NC]; [exists (q_cpu s' p); eapply last_use; eauto|exists v; eapply last_on; eauto].
    + assert (exists sve vq, o = OCreate i sve vq) as (sve & vq & ->)
        by (exact (proj2 (foot_step h s o s' E) i P X)).
      exists zeros. eapply last_new; eauto.
Qed.
End REACH.
