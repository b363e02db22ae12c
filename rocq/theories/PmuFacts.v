(** Proofs about the switch of the performance counters *)
From Coq Require Import NArith List Bool Lia ZifyBool ZifyN ZifyNat.
From Verif Require Import Pmu SpecPmu.
Import ListNotations.
Local Open Scope N_scope.

Lemma all33 : CLEAR_ALL = N.ones 33.
Proof. reflexivity. Qed.
Lemma tb_all : forall i, N.testbit CLEAR_ALL i = (i <? 33).
Proof.
  intro i. rewrite all33. destruct (N.ltb_spec i 33) as [L|L]; [apply N.ones_spec_low; exact L|apply N.ones_spec_high; exact L].
Qed.
Lemma mask_restored : forall c h0 x, cpu_ok c -> within h0 (c_mask c) -> within x (c_mask c) ->
  w_clr (w_set c h0 x) (N.lxor x CLEAR_ALL) = x.
Proof.
  intros c h0 x (_ & C & _) H X. apply N.bits_inj. intro i. unfold w_clr, w_set.
  rewrite N.ldiff_spec, N.lor_spec, N.land_spec, N.lxor_spec, tb_all.
  specialize (C i). specialize (H i). specialize (X i). change (2 ^ 33 - 1) with CLEAR_ALL in C. rewrite tb_all in C.
  destruct (N.testbit x i), (N.testbit h0 i), (N.testbit (c_mask c) i), (i <? 33); cbn; try reflexivity;
    try (specialize (H eq_refl); discriminate); try (specialize (X eq_refl); discriminate); specialize (C eq_refl); discriminate.
Qed.

Definition mem (k : N) (l : list N) : bool := existsb (N.eqb k) l.
Lemma fold_upd : forall (g : N -> N) l f j, fold_left (fun f k => upd f k (g k)) l f j = if mem j l then g j else f j.
Proof.
  intros g l. induction l as [|k l IH]; intros f j; [reflexivity|]. cbn [fold_left mem existsb]. fold (mem j l). rewrite IH. unfold upd.
  destruct (N.eqb_spec j k) as [->|_]; destruct (mem _ l); reflexivity.
Qed.
Lemma down_mem : forall n j, mem j (down n) = (j <? N.of_nat n).
Proof.
  induction n as [|n IH]; intro j; [cbn; lia|]. cbn [down mem existsb]. fold (mem j (down n)). rewrite IH. lia.
Qed.
Lemma counters_mem : forall num j, num <= 31 -> mem j (counters num) = (j <? num).
Proof.
  intros num j H. unfold counters. destruct (N.eqb_spec num 0) as [->|N0]; [cbn; lia|]. replace (num <=? 31) with true by lia.
  rewrite down_mem, N2Nat.id. reflexivity.
Qed.
Lemma fold_hw : forall s l h, let h' := fold_left (fun h k => set_typer (set_cntr h k (s_cntr s k)) k (s_typer s k)) l h in
  h_pmcr h' = h_pmcr h /\ h_ccfiltr h' = h_ccfiltr h /\ h_ccntr h' = h_ccntr h /\ h_cnten h' = h_cnten h /\ h_inten h' = h_inten h /\
  h_ovs h' = h_ovs h /\ h_selr h' = h_selr h /\ h_userenr h' = h_userenr h /\
  (forall j, h_cntr h' j = if mem j l then s_cntr s j else h_cntr h j) /\
  (forall j, h_typer h' j = if mem j l then s_typer s j else h_typer h j).
Proof.
  intros s l. induction l as [|k l IH]; intro h; [cbn; repeat (split; [reflexivity|]); reflexivity|].
  cbn [fold_left]. cbv zeta. set (h1 := set_typer (set_cntr h k (s_cntr s k)) k (s_typer s k)).
  specialize (IH h1). cbv zeta in IH. destruct IH as (A1 & A2 & A3 & A4 & A5 & A6 & A7 & A8 & A9 & A10).
  rewrite A1, A2, A3, A4, A5, A6, A7, A8. repeat (split; [reflexivity|]).
  split; intro j; [rewrite A9|rewrite A10]; cbn [mem existsb]; fold (mem j l); unfold h1; cbn [set_typer set_cntr h_cntr h_typer]; unfold upd;
    destruct (N.eqb_spec j k) as [->|_]; destruct (mem _ l); reflexivity.
Qed.

(** The counter behind PMXEVCNTR_EL0, PMXEVTYPER_EL0 *)
Definition target (c : pmu_cpu) (s : N) : option N :=
  if s <? c_n c then Some s else match c_x c s with XCntr k => Some k | _ => None end.
Definition defined (c : pmu_cpu) (s : N) : Prop := s < c_n c \/ c_x c s <> XUndef.
Definition ttarget (c : pmu_cpu) (s : N) : option N := if s =? 31 then None else target c s.

(** A saved state is one that restoring brings back *)
Definition saved_ok (c : pmu_cpu) (s : pmu_state) : Prop :=
  s_cntenclr s = s_cntenset s /\ s_intenclr s = s_intenset s /\ s_ovsclr s = s_ovsset s /\
  within (s_cntenset s) (c_mask c) /\ within (s_intenset s) (c_mask c) /\ within (s_ovsset s) (c_mask c) /\
  (N.land (s_selr s) 31 = 31 -> s_xtyper s = s_ccfiltr s).

Lemma save_spec : forall c h num old, cpu_ok c -> hw_ok c h -> num <= 31 ->
  (defined c (sel h) -> exists s, pmu_save c h num old = Some s) /\
  forall s, pmu_save c h num old = Some s ->
    saved_ok c s /\ defined c (sel h) /\ s_ccfiltr s = h_ccfiltr h /\ s_ccntr s = h_ccntr h /\ s_cntenset s = h_cnten h /\ s_intenset s = h_inten h /\ s_ovsset s = h_ovs h /\
    s_selr s = h_selr h /\ s_userenr s = h_userenr h /\
    (forall k, k < num -> s_cntr s k = h_cntr h k /\ s_typer s k = h_typer h k) /\
    (forall k, target c (sel h) = Some k -> s_xcntr s = h_cntr h k) /\
    (forall k, ttarget c (sel h) = Some k -> s_xtyper s = h_typer h k).
Proof.
  intros c h num old (C1 & C2 & C3) (H1 & H2 & H3 & H4 & H5) Hn. unfold pmu_save, r_xcntr, r_xtyper. split.
  - intro D. unfold defined in D. destruct (N.eqb_spec (sel h) 31); destruct (N.ltb_spec (sel h) (c_n c)); try (eexists; reflexivity);
      (destruct (c_x c (sel h)); [exfalso; destruct D; [lia|congruence]| |]; eexists; reflexivity).
  - intros s. unfold target, ttarget, target, defined.
    assert (G : forall xc xt, Some (mkPs (h_ccfiltr h) (h_ccntr h) (h_cnten h) (h_cnten h) (h_inten h) (h_inten h) (h_ovs h) (h_ovs h)
                 (h_selr h) (h_userenr h) xc xt
                 (fold_left (fun f k => upd f k (h_cntr h k)) (counters num) (s_cntr old))
                 (fold_left (fun f k => upd f k (h_typer h k)) (counters num) (s_typer old))) = Some s ->
       (sel h = 31 -> xt = h_ccfiltr h) ->
       saved_ok c s /\ s_ccfiltr s = h_ccfiltr h /\ s_ccntr s = h_ccntr h /\ s_cntenset s = h_cnten h /\ s_intenset s = h_inten h /\ s_ovsset s = h_ovs h /\
       s_selr s = h_selr h /\ s_userenr s = h_userenr h /\ (forall k, k < num -> s_cntr s k = h_cntr h k /\ s_typer s k = h_typer h k) /\ s_xcntr s = xc /\ s_xtyper s = xt).
    { intros xc xt E X. injection E as <-. unfold saved_ok. cbn. split; [auto 12|]. repeat (split; [reflexivity|]). split; [|auto].
      intros k Hk. rewrite !fold_upd, !counters_mem by exact Hn. replace (k <? num) with true by lia. auto. }
    destruct (N.ltb_spec (sel h) (c_n c)) as [L|L]; [|destruct (c_x c (sel h)) as [| |j] eqn:EX; [discriminate| |]];
    destruct (N.eqb_spec (sel h) 31) as [E31|E31]; try lia; intro E; apply G in E; try (intro; congruence);
      destruct E as (E0 & E1 & E2 & E3 & E4 & E5 & E6 & E7 & E8 & E9 & E10);
      (split; [exact E0|]; split; [first [left; lia|right; congruence]|]; repeat (split; [assumption|]); split; intros k K; try discriminate; injection K as <-; assumption).
Qed.

Lemma restore_spec : forall c h num s, cpu_ok c -> within (h_cnten h) (c_mask c) -> within (h_inten h) (c_mask c) -> within (h_ovs h) (c_mask c) -> saved_ok c s -> num <= 31 ->
  (defined c (N.land (s_selr s) 31) -> exists h', pmu_restore c h num s = Some h') /\
  forall h', pmu_restore c h num s = Some h' ->
    h_pmcr h' = h_pmcr h /\ h_ccfiltr h' = s_ccfiltr s /\ h_ccntr h' = s_ccntr s /\ h_cnten h' = s_cntenset s /\ h_inten h' = s_intenset s /\ h_ovs h' = s_ovsset s /\
    h_selr h' = s_selr s /\ h_userenr h' = s_userenr s /\
    (forall k, k < num -> h_cntr h' k = s_cntr s k /\ h_typer h' k = s_typer s k) /\
    (forall k, num <= k -> h_cntr h' k = (if match target c (N.land (s_selr s) 31) with Some j => k =? j | None => false end then s_xcntr s else h_cntr h k) /\
                           h_typer h' k = (if match ttarget c (N.land (s_selr s) 31) with Some j => k =? j | None => false end then s_xtyper s else h_typer h k)).
Proof.
  intros c h num s Hc H1 H2 H3 (S1 & S2 & S3 & S4 & S5 & S6 & S7) Hn. unfold pmu_restore. cbv zeta.
  cbn [set_ccntr set_ccfiltr h_cnten h_inten h_ovs]. rewrite S1, S2, S3, !mask_restored by assumption.
  set (x := N.land (s_selr s) 31) in *.
  set (h1 := set_userenr _ _). assert (Es : sel h1 = x) by reflexivity.
  destruct Hc as (C1 & _). unfold w_xcntr. rewrite Es. split.
  - intro D. unfold defined in D. destruct (N.ltb_spec x (c_n c)) as [L|L].
    + unfold w_xtyper. change (sel (set_cntr h1 x (s_xcntr s))) with x. destruct (x =? 31); [eexists; reflexivity|].
      replace (x <? c_n c) with true by lia. eexists; reflexivity.
    + destruct (c_x c x) as [| |j] eqn:EX; [exfalso; destruct D; [lia|congruence]| |]; unfold w_xtyper.
      * rewrite Es. destruct (x =? 31); [eexists; reflexivity|]. replace (x <? c_n c) with false by lia. rewrite EX. eexists; reflexivity.
      * change (sel (set_cntr h1 j (s_xcntr s))) with x. destruct (x =? 31); [eexists; reflexivity|]. replace (x <? c_n c) with false by lia. rewrite EX. eexists; reflexivity.
  - intros h' E.
    assert (G : exists h2, fold_left (fun h k => set_typer (set_cntr h k (s_cntr s k)) k (s_typer s k)) (counters num) h2 = h' /\
      h_pmcr h2 = h_pmcr h /\ h_ccfiltr h2 = s_ccfiltr s /\ h_ccntr h2 = s_ccntr s /\ h_cnten h2 = s_cntenset s /\ h_inten h2 = s_intenset s /\ h_ovs h2 = s_ovsset s /\
      h_selr h2 = s_selr s /\ h_userenr h2 = s_userenr s /\
      (forall k, h_cntr h2 k = (if match target c x with Some j => k =? j | None => false end then s_xcntr s else h_cntr h k)) /\
      (forall k, h_typer h2 k = (if match ttarget c x with Some j => k =? j | None => false end then s_xtyper s else h_typer h k))).
    { unfold target, ttarget, target. destruct (N.ltb_spec x (c_n c)) as [L|L].
      - unfold w_xtyper in E. change (sel (set_cntr h1 x (s_xcntr s))) with x in E. destruct (N.eqb_spec x 31) as [E31|E31]; [lia|].
        replace (x <? c_n c) with true in E by lia. injection E as E. eexists. split; [exact E|]. repeat (split; [reflexivity|]). split; reflexivity.
      - destruct (c_x c x) as [| |j] eqn:EX; [discriminate| |].
        + unfold w_xtyper in E. rewrite Es in E. destruct (N.eqb_spec x 31) as [E31|E31].
          * injection E as E. eexists. split; [exact E|]. split; [reflexivity|]. split; [exact (S7 E31)|]. repeat (split; [reflexivity|]). split; reflexivity.
          * replace (x <? c_n c) with false in E by lia. rewrite EX in E. injection E as E. eexists. split; [exact E|]. repeat (split; [reflexivity|]). split; reflexivity.
        + unfold w_xtyper in E. change (sel (set_cntr h1 j (s_xcntr s))) with x in E. destruct (N.eqb_spec x 31) as [E31|E31].
          * injection E as E. eexists. split; [exact E|]. split; [reflexivity|]. split; [exact (S7 E31)|]. repeat (split; [reflexivity|]). split; reflexivity.
          * replace (x <? c_n c) with false in E by lia. rewrite EX in E. injection E as E. eexists. split; [exact E|]. repeat (split; [reflexivity|]). split; reflexivity. }
    destruct G as (h2 & <- & G1 & G2 & G3 & G4 & G5 & G6 & G7 & G8 & G9 & G10).
    pose proof (fold_hw s (counters num) h2) as F. cbv zeta in F. destruct F as (A1 & A2 & A3 & A4 & A5 & A6 & A7 & A8 & A9 & A10).
    rewrite A1, A2, A3, A4, A5, A6, A7, A8. repeat (split; [assumption|]).
    split; intros k Hk; rewrite A9, A10, !counters_mem by exact Hn.
    + replace (k <? num) with true by lia. auto.
    + replace (k <? num) with false by lia. rewrite G9, G10. auto.
Qed.
