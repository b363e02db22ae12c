(** Proofs about the switch of the performance counters: runs of RECs *)
From Coq Require Import NArith List Bool Lia ZifyBool ZifyN ZifyNat.
From Verif Require Import Pmu SpecPmu PmuFacts.
Import ListNotations.
Local Open Scope N_scope.

Lemma tb_bits : forall n f i, N.testbit (bits n f) i = (i <? N.of_nat n) && f i.
Proof.
  induction n as [|n IH]; intros f i; [cbn; replace (i <? 0) with false by lia; reflexivity|]. cbn [bits].
  destruct (f (N.of_nat n)) eqn:F.
  - destruct (N.eqb_spec (N.of_nat n) i) as [<-|Ne].
    + rewrite N.setbit_eq, F. replace (N.of_nat n <? N.of_nat (S n)) with true by lia. reflexivity.
    + rewrite N.setbit_neq by exact Ne. rewrite IH. f_equal. lia.
  - rewrite IH. destruct (N.eqb_spec (N.of_nat n) i) as [<-|Ne]; [rewrite F, !andb_false_r; reflexivity|]. f_equal. lia.
Qed.
Lemma tb_realm : forall c num i, N.testbit (realm_mask c num) i = true -> N.testbit (c_mask c) i = true /\ (i < num \/ 31 <= i).
Proof.
  intros c num i H. unfold realm_mask in H. rewrite N.land_spec, tb_bits in H. unfold realm_bit in H. lia.
Qed.
Lemma realm_mask_in : forall c num, within (realm_mask c num) (c_mask c).
Proof. intros c num i H. apply tb_realm in H. apply H. Qed.
Lemma within_trans : forall a b d, within a b -> within b d -> within a d.
Proof. intros a b d H1 H2 i H. auto. Qed.
Lemma within_lor : forall a b m, within a m -> within b m -> within (N.lor a b) m.
Proof. intros a b m H1 H2 i H. rewrite N.lor_spec in H. apply orb_prop in H. destruct H; auto. Qed.
Lemma within_land_r : forall a m, within (N.land a m) m.
Proof. intros a m i H. rewrite N.land_spec in H. apply andb_prop in H. apply H. Qed.
Lemma within_ldiff : forall a b m, within a m -> within (N.ldiff a b) m.
Proof. intros a b m H i K. rewrite N.ldiff_spec in K. apply andb_prop in K. apply H. apply K. Qed.
Lemma within_0 : forall m, within 0 m.
Proof. intros m i H. rewrite N.bits_0 in H. discriminate. Qed.

(** What holds of the registers while a realm runs *)
Definition ri (c : pmu_cpu) (num : N) (h : pmu_hw) : Prop :=
  within (h_cnten h) (realm_mask c num) /\ within (h_inten h) (realm_mask c num) /\ within (h_ovs h) (realm_mask c num) /\
  N.testbit (h_pmcr h) 1 = false /\ N.testbit (h_pmcr h) 2 = false.
Lemma ri_hw : forall c num h, ri c num h -> hw_ok c h.
Proof.
  intros c num h (A & B & C & D & E). pose proof (realm_mask_in c num). repeat split; try assumption; eapply within_trans; eassumption.
Qed.
Lemma ldiff6 : forall v, N.testbit (N.ldiff v 6) 1 = false /\ N.testbit (N.ldiff v 6) 2 = false.
Proof. intro v. rewrite !N.ldiff_spec. change (N.testbit 6 1) with true. change (N.testbit 6 2) with true. cbn. rewrite !andb_false_r. auto. Qed.

Lemma on_mask_ri : forall c num r f h, ri c num h -> (forall x, within x (realm_mask c num) -> within (f x) (realm_mask c num)) -> ri c num (on_mask r f h).
Proof. intros c num r f h (A & B & C & D & E) F. destruct r; unfold ri; cbn; auto 10. Qed.
Lemma on_mask_cntr : forall r f h, h_cntr (on_mask r f h) = h_cntr h /\ h_typer (on_mask r f h) = h_typer h.
Proof. intros [] f h; split; reflexivity. Qed.
Lemma act_ok : forall c num a h, cpu_ok c -> num <= c_n c -> ri c num h ->
  ri c num (realm_do c num h a) /\ same_above num h (realm_do c num h a).
Proof.
  intros c num a h Hc Hn R. pose proof R as (A & B & C & D & E). unfold same_above.
  assert (U : forall f k v j, num <= j -> k < num -> upd f k v j = f j) by (intros f k v j Hj Hk; unfold upd; replace (j =? k) with false by lia; reflexivity).
  destruct a as [k v|k v|r v|r v|v|v|v|v|v|v|v|k v o]; cbn [realm_do].
  - destruct (N.ltb_spec k num); [|auto]. split; [exact R|]. intros j Hj. cbn. auto.
  - destruct (N.ltb_spec k num); [|auto]. split; [exact R|]. intros j Hj. cbn. auto.
  - split; [apply on_mask_ri; [exact R|]|destruct (on_mask_cntr r (fun x => N.lor x (N.land v (realm_mask c num))) h) as [-> ->]; auto].
    intros x Hx. apply within_lor; [exact Hx|apply within_land_r].
  - split; [apply on_mask_ri; [exact R|]|destruct (on_mask_cntr r (fun x => N.ldiff x (N.land v (realm_mask c num))) h) as [-> ->]; auto].
    intros x Hx. apply within_ldiff. exact Hx.
  - split; [exact R|]. auto.
  - split; [exact R|]. auto.
  - split; [exact R|]. auto.
  - split; [exact R|]. auto.
  - destruct (ldiff6 v) as [P1 P2]. split; [unfold ri; cbn; auto 10|]. intros j Hj. cbn. destruct (N.testbit v 1); [|auto].
    replace (j <? num) with false by lia. auto.
  - destruct (N.ltb_spec (sel h) num); [|auto]. split; [exact R|]. intros j Hj. cbn. auto.
  - destruct (sel h =? 31); [split; [exact R|]; auto|]. destruct (N.ltb_spec (sel h) num); [|auto]. split; [exact R|]. intros j Hj. cbn. auto.
  - destruct (N.testbit (h_cnten h) k) eqn:T; cbn [andb]; [|auto]. destruct (N.ltb_spec k (c_n c)) as [L|L]; [|auto].
    assert (K : k < num).
    { apply A in T. apply tb_realm in T. destruct T as [_ [T|T]]; [exact T|]. destruct Hc as [C1 _]. lia. }
    split; [|intros j Hj; cbn; auto].
    apply on_mask_ri; [exact R|]. intros x Hx. destruct o; [|exact Hx]. apply within_lor; [exact Hx|].
    intros i Hi. rewrite N.land_spec in Hi. apply andb_prop in Hi. destruct Hi as [Hi1 Hi2].
    assert (i = k) as ->. { destruct (N.eq_dec i k) as [e|e]; [exact e|]. rewrite N.pow2_bits_false in Hi1 by congruence. discriminate. }
    apply A. exact T.
Qed.
Lemma acts_ok : forall c num acts h, cpu_ok c -> num <= c_n c -> ri c num h ->
  ri c num (fold_left (realm_do c num) acts h) /\ same_above num h (fold_left (realm_do c num) acts h).
Proof.
  intros c num acts. induction acts as [|a acts IH]; intros h Hc Hn R; [split; [exact R|intros k _; auto]|]. cbn [fold_left].
  destruct (act_ok c num a h Hc Hn R) as [R1 S1]. destruct (IH _ Hc Hn R1) as [R2 S2]. split; [exact R2|].
  intros k Hk. destruct (S1 k Hk) as [P1 P2]. destruct (S2 k Hk) as [Q1 Q2]. split; congruence.
Qed.

(** What holds of a REC that does not run *)
Definition rec_ok (c : pmu_cpu) (r : prec) : Prop :=
  q_num r <= c_n c /\ N.testbit (q_pmcr r) 1 = false /\ N.testbit (q_pmcr r) 2 = false /\ saved_ok c (q_state r) /\
  within (s_cntenset (q_state r)) (realm_mask c (q_num r)) /\ within (s_intenset (q_state r)) (realm_mask c (q_num r)) /\
  within (s_ovsset (q_state r)) (realm_mask c (q_num r)).
Lemma rec_new_ok : forall c num, num <= c_n c -> rec_ok c (rec_new num).
Proof.
  intros c num H. unfold rec_ok, rec_new, saved_ok. cbn. pose proof within_0.
  repeat split; auto; discriminate.
Qed.
Lemma w_pmcr_same : forall h v, N.testbit v 1 = false -> N.testbit v 2 = false ->
  h_pmcr (w_pmcr h v) = v /\ h_cntr (w_pmcr h v) = h_cntr h.
Proof.
  intros h v H1 H2. unfold w_pmcr. cbn [h_pmcr h_cntr]. rewrite H1. split; [|reflexivity].
  apply N.bits_inj. intro i. rewrite N.ldiff_spec. destruct (N.eq_dec i 1) as [->|N1]; [rewrite H1; reflexivity|].
  destruct (N.eq_dec i 2) as [->|N2]; [rewrite H2; reflexivity|].
  replace (N.testbit 6 i) with false; [apply andb_true_r|]. symmetry. clear - N1 N2.
  destruct (N.ltb_spec i 3) as [L|L]; [assert (i = 0) as -> by lia; reflexivity|].
  apply N.bits_above_log2. change (N.log2 6) with 2. lia.
Qed.

Lemma enter_ok : forall c h r, cpu_ok c -> hw_ok c h -> rec_ok c r ->
  (defined c (N.land (s_selr (q_state r)) 31) -> exists h1, enter c h r = Some h1) /\
  forall h1, enter c h r = Some h1 -> ri c (q_num r) h1 /\
    h_pmcr h1 = q_pmcr r /\ h_ccfiltr h1 = s_ccfiltr (q_state r) /\ h_ccntr h1 = s_ccntr (q_state r) /\
    h_cnten h1 = s_cntenset (q_state r) /\ h_inten h1 = s_intenset (q_state r) /\ h_ovs h1 = s_ovsset (q_state r) /\
    h_selr h1 = s_selr (q_state r) /\ h_userenr h1 = s_userenr (q_state r) /\
    (forall k, k < q_num r -> h_cntr h1 k = s_cntr (q_state r) k /\ h_typer h1 k = s_typer (q_state r) k) /\
    (own_selected c r -> same_above (q_num r) h h1).
Proof.
  intros c h r Hc (H1 & H2 & H3 & _) (R1 & R2 & R3 & R4 & R5 & R6 & R7). unfold enter.
  assert (Hn : q_num r <= 31) by (destruct Hc; lia).
  destruct (w_pmcr_same h (q_pmcr r) R2 R3) as [P1 P2].
  destruct (restore_spec c (w_pmcr h (q_pmcr r)) (q_num r) (q_state r) Hc H1 H2 H3 R4 Hn) as [E1 E2]. split; [exact E1|].
  intros h1 E. destruct (E2 h1 E) as (A1 & A2 & A3 & A4 & A5 & A6 & A7 & A8 & A9 & A10). rewrite P1 in A1.
  split; [unfold ri; rewrite A1, A4, A5, A6; auto 10|]. repeat (split; [assumption|]).
  intros O k Hk. destruct (A10 k Hk) as [Q1 Q2]. rewrite Q1, Q2, P2.
  assert (T : forall j, target c (N.land (s_selr (q_state r)) 31) = Some j -> j < q_num r).
  { intros j Tj. unfold target in Tj. destruct Hc as (_ & _ & C3). destruct O as [O|O].
    - replace (N.land (s_selr (q_state r)) 31 <? c_n c) with true in Tj by lia. injection Tj as <-. exact O.
    - rewrite O. destruct (N.ltb_spec (N.land (s_selr (q_state r)) 31) (c_n c)); [injection Tj as <-; assumption|].
      destruct (c_x c _) eqn:X; try discriminate. injection Tj as <-. eapply C3. exact X. }
  unfold ttarget. split.
  - destruct (target c _) as [j|] eqn:Tj; [|reflexivity]. specialize (T j eq_refl). replace (k =? j) with false by lia. reflexivity.
  - destruct (N.land (s_selr (q_state r)) 31 =? 31); [reflexivity|].
    destruct (target c _) as [j|] eqn:Tj; [|reflexivity]. specialize (T j eq_refl). replace (k =? j) with false by lia. reflexivity.
Qed.
Lemma leave_ok : forall c h r, cpu_ok c -> ri c (q_num r) h -> q_num r <= c_n c ->
  (defined c (sel h) -> exists x, leave c h r = Some x) /\
  forall r' o, leave c h r = Some (r', o) -> rec_ok c r' /\ q_num r' = q_num r /\ q_pmcr r' = h_pmcr h /\ o = pmu_overflow h /\
    s_ccfiltr (q_state r') = h_ccfiltr h /\ s_ccntr (q_state r') = h_ccntr h /\ s_cntenset (q_state r') = h_cnten h /\ s_intenset (q_state r') = h_inten h /\
    s_ovsset (q_state r') = h_ovs h /\ s_selr (q_state r') = h_selr h /\ s_userenr (q_state r') = h_userenr h /\
    (forall k, k < q_num r -> s_cntr (q_state r') k = h_cntr h k /\ s_typer (q_state r') k = h_typer h k).
Proof.
  intros c h r Hc R Hn. unfold leave. assert (Hn' : q_num r <= 31) by (destruct Hc; lia).
  destruct (save_spec c h (q_num r) (q_state r) Hc (ri_hw _ _ _ R) Hn') as [S1 S2]. split.
  - intro D. destruct (S1 D) as [s ->]. eexists. reflexivity.
  - intros r' o E. destruct (pmu_save c h (q_num r) (q_state r)) as [s|]; [|discriminate]. injection E as <- <-.
    destruct (S2 s eq_refl) as (A0 & _ & A1 & A2 & A3 & A4 & A5 & A6 & A7 & A8 & _ & _). cbn [q_num q_pmcr q_state].
    destruct R as (R1 & R2 & R3 & R4 & R5).
    split; [unfold rec_ok; cbn [q_num q_pmcr q_state]; rewrite A3, A4, A5; auto 10|]. auto 20.
Qed.

Lemma run_ok : forall c h ns r acts h' r' o, cpu_ok c -> hw_ok c h -> rec_ok c r -> pmu_run c h ns r acts = Some (h', r', o) ->
  rec_ok c r' /\ hw_ok c h' /\ same_below (q_num r) h h' /\ (own_selected c r -> same_above (q_num r) h h') /\ q_num r' = q_num r.
Proof.
  intros c h ns r acts h' r' o Hc Hh Hr E. unfold pmu_run in E.
  assert (Hn : q_num r <= c_n c) by apply Hr. assert (Hn' : q_num r <= 31) by (destruct Hc; lia).
  destruct (save_spec c h (q_num r) ns Hc Hh Hn') as [_ S2]. destruct (pmu_save c h (q_num r) ns) as [n|]; [|discriminate].
  destruct (S2 n eq_refl) as (A0 & _ & A1 & A2 & A3 & A4 & A5 & A6 & A7 & A8 & A9 & A10). clear S2.
  destruct (enter_ok c h r Hc Hh Hr) as [_ E2]. destruct (enter c h r) as [h1|]; [|discriminate].
  destruct (E2 h1 eq_refl) as (B0 & _ & _ & _ & _ & _ & _ & _ & _ & _ & B10). clear E2.
  destruct (acts_ok c (q_num r) acts h1 Hc Hn B0) as [R2 Ab]. set (h2 := fold_left _ acts h1) in *.
  destruct (leave_ok c h2 r Hc R2 Hn) as [_ L2]. destruct (leave c h2 r) as [[r2 o2]|]; [|discriminate].
  destruct (L2 r2 o2 eq_refl) as (C0 & C1 & _). clear L2.
  destruct Hh as (H1 & H2 & H3 & H4 & H5). destruct (w_pmcr_same h2 (h_pmcr h) H4 H5) as [P1 P2].
  destruct (ri_hw _ _ _ R2) as (M1 & M2 & M3 & _).
  destruct (restore_spec c (w_pmcr h2 (h_pmcr h)) (q_num r) n Hc M1 M2 M3 A0 Hn') as [_ Q].
  destruct (pmu_restore c (w_pmcr h2 (h_pmcr h)) (q_num r) n) as [h3|]; [|discriminate]. injection E as <- <- <-.
  destruct (Q h3 eq_refl) as (D1 & D2 & D3 & D4 & D5 & D6 & D7 & D8 & D9 & D10). clear Q. rewrite P1 in D1.
  split; [exact C0|]. split; [unfold hw_ok; rewrite D1, D4, D5, D6, A3, A4, A5; auto 10|].
  split.
  { unfold same_below. repeat (split; [congruence|]). intros k Hk. destruct (D9 k Hk) as [-> ->]. apply A8. exact Hk. }
  split; [|exact C1]. intros Own k Hk. destruct (D10 k Hk) as [-> ->]. specialize (B10 Own k Hk). specialize (Ab k Hk).
  destruct B10 as [B11 B12]. destruct Ab as [Ab1 Ab2]. rewrite P2. change (h_typer (w_pmcr h2 (h_pmcr h))) with (h_typer h2).
  rewrite A6. fold (sel h). split.
  - destruct (target c (sel h)) as [j|] eqn:T; [|congruence]. destruct (N.eqb_spec k j) as [->|_]; [apply A9; reflexivity|congruence].
  - destruct (ttarget c (sel h)) as [j|] eqn:T; [|congruence]. destruct (N.eqb_spec k j) as [->|_]; [apply A10; reflexivity|congruence].
Qed.

Definition sys_ok (c : pmu_cpu) (y : psys) : Prop := hw_ok c (y_hw y) /\ forall id r, y_rec y id = Some r -> rec_ok c r.
Lemma step_ok : forall c y o y', cpu_ok c -> sys_ok c y -> pop_ok c o -> pstep c y o = Some y' -> sys_ok c y'.
Proof.
  intros c y o y' Hc [Hh Hr] Ho E. destruct o as [h|id num|id ns acts]; cbn [pstep pop_ok] in *.
  - injection E as <-. split; [exact Ho|exact Hr].
  - injection E as <-. split; [exact Hh|]. intros i r. cbn. destruct (i =? id); [intro K; injection K as <-; apply rec_new_ok; exact Ho|apply Hr].
  - destruct (y_rec y id) as [r|] eqn:Er; [|injection E as <-; split; assumption].
    destruct (pmu_run c (y_hw y) ns r acts) as [[[h r'] o]|] eqn:Ru; [|discriminate]. injection E as <-.
    destruct (run_ok _ _ _ _ _ _ _ _ Hc Hh (Hr _ _ Er) Ru) as (K1 & K2 & _). split; [exact K2|].
    intros i q. cbn. destruct (i =? id); [intro K; injection K as <-; exact K1|apply Hr].
Qed.
Lemma reaches_ok : forall c h0 y, cpu_ok c -> pmu_reaches c h0 y -> sys_ok c y.
Proof.
  intros c h0 y Hc [H0 [l [F E]]]. assert (S : sys_ok c (mkPsys h0 (fun _ => None))) by (split; [exact H0|intros id r K; discriminate]).
  revert S E. generalize (mkPsys h0 (fun _ => None)). induction l as [|o l IH]; intros y0 S E; cbn [psteps] in E; [injection E as <-; exact S|].
  inversion F as [|o' l' Fo Fl]. destruct (pstep c y0 o) as [y1|] eqn:St; [|discriminate]. apply (IH Fl y1); [|exact E].
  eapply step_ok; eassumption.
Qed.

(** The theorems *)
Lemma host_kept : forall c h0 y id r ns acts h' r' o, cpu_ok c -> pmu_reaches c h0 y -> y_rec y id = Some r ->
  pmu_run c (y_hw y) ns r acts = Some (h', r', o) ->
  same_below (q_num r) (y_hw y) h' /\ (own_selected c r -> same_above (q_num r) (y_hw y) h').
Proof.
  intros c h0 y id r ns acts h' r' o Hc R Er Ru. destruct (reaches_ok c h0 y Hc R) as [Hh Hr].
  destruct (run_ok _ _ _ _ _ _ _ _ Hc Hh (Hr _ _ Er) Ru) as (_ & _ & A & B & _). auto.
Qed.
Lemma run_defined : forall c h0 y id r ns acts, cpu_ok c -> pmu_reaches c h0 y -> y_rec y id = Some r ->
  (forall s, c_x c s <> XUndef) -> exists x, pmu_run c (y_hw y) ns r acts = Some x.
Proof.
  intros c h0 y id r ns acts Hc R Er X. destruct (reaches_ok c h0 y Hc R) as [Hh Hr]. specialize (Hr _ _ Er).
  assert (D : forall s, defined c s) by (intro s; right; apply X).
  assert (Hn : q_num r <= c_n c) by apply Hr. assert (Hn' : q_num r <= 31) by (destruct Hc; lia).
  unfold pmu_run. destruct (save_spec c (y_hw y) (q_num r) ns Hc Hh Hn') as [S1 S2]. destruct (S1 (D _)) as [n En]. rewrite En.
  destruct (S2 n En) as (A0 & _). destruct (enter_ok c (y_hw y) r Hc Hh Hr) as [E1 E2]. destruct (E1 (D _)) as [h1 Eh]. rewrite Eh.
  destruct (E2 h1 Eh) as [B0 _]. destruct (acts_ok c (q_num r) acts h1 Hc Hn B0) as [R2 _].
  destruct (leave_ok c _ r Hc R2 Hn) as [L1 _]. destruct (L1 (D _)) as [[r' o] El]. rewrite El.
  destruct (ri_hw _ _ _ R2) as (M1 & M2 & M3 & _).
  destruct (restore_spec c (w_pmcr (fold_left (realm_do c (q_num r)) acts h1) (h_pmcr (y_hw y))) (q_num r) n Hc M1 M2 M3 A0 Hn') as [Q _].
  destruct (Q (D _)) as [h' ->]. eexists. reflexivity.
Qed.
Lemma realm_kept : forall c h0 y id r acts h1 r' o h h1', cpu_ok c -> pmu_reaches c h0 y -> y_rec y id = Some r ->
  enter c (y_hw y) r = Some h1 -> leave c (fold_left (realm_do c (q_num r)) acts h1) r = Some (r', o) ->
  hw_ok c h -> enter c h r' = Some h1' -> same_below (q_num r) (fold_left (realm_do c (q_num r)) acts h1) h1'.
Proof.
  intros c h0 y id r acts h1 r' o h h1' Hc R Er E L Hh E'. destruct (reaches_ok c h0 y Hc R) as [Hy Hr]. specialize (Hr _ _ Er).
  assert (Hn : q_num r <= c_n c) by apply Hr.
  destruct (enter_ok c (y_hw y) r Hc Hy Hr) as [_ E2]. destruct (E2 h1 E) as [B0 _].
  destruct (acts_ok c (q_num r) acts h1 Hc Hn B0) as [R2 _]. set (h2 := fold_left _ acts h1) in *.
  destruct (leave_ok c h2 r Hc R2 Hn) as [_ L2]. destruct (L2 r' o L) as (C0 & C1 & C2 & _ & C3 & C4 & C5 & C6 & C7 & C8 & C9 & C10).
  destruct (enter_ok c h r' Hc Hh C0) as [_ F2]. destruct (F2 h1' E') as (_ & D1 & D2 & D3 & D4 & D5 & D6 & D7 & D8 & D9 & _).
  unfold same_below. repeat (split; [congruence|]). intros k Hk. rewrite C1 in D9. destruct (D9 k Hk) as [-> ->]. apply C10. exact Hk.
Qed.
Lemma overflow_said : forall c h0 y id r acts h1 r' o, cpu_ok c -> pmu_reaches c h0 y -> y_rec y id = Some r ->
  enter c (y_hw y) r = Some h1 -> leave c (fold_left (realm_do c (q_num r)) acts h1) r = Some (r', o) ->
  (o = true <-> realm_overflow (q_num r) (fold_left (realm_do c (q_num r)) acts h1)).
Proof.
  intros c h0 y id r acts h1 r' o Hc R Er E L. destruct (reaches_ok c h0 y Hc R) as [Hy Hr]. specialize (Hr _ _ Er).
  assert (Hn : q_num r <= c_n c) by apply Hr.
  destruct (enter_ok c (y_hw y) r Hc Hy Hr) as [_ E2]. destruct (E2 h1 E) as [B0 _].
  destruct (acts_ok c (q_num r) acts h1 Hc Hn B0) as [R2 _]. set (h2 := fold_left _ acts h1) in *.
  destruct (leave_ok c h2 r Hc R2 Hn) as [_ L2]. destruct (L2 r' o L) as (_ & _ & _ & -> & _).
  unfold pmu_overflow, realm_overflow. set (x := N.land (N.land (h_ovs h2) (h_inten h2)) (h_cnten h2)).
  split.
  - intro K. apply andb_prop in K. destruct K as [K1 K2]. split; [exact K2|].
    assert (B : N.testbit x (N.log2 x) = true) by (apply N.bit_log2; lia).
    exists (N.log2 x). unfold x in B at 1. rewrite !N.land_spec in B. apply andb_prop in B. destruct B as [B B3]. apply andb_prop in B. destruct B as [B1 B2].
    split; [|auto]. destruct R2 as (R2 & _). apply R2 in B3. apply tb_realm in B3. apply B3.
  - intros [K2 (k & _ & B1 & B2 & B3)]. rewrite K2, andb_true_r.
    assert (B : N.testbit x k = true) by (unfold x; rewrite !N.land_spec, B1, B2, B3; reflexivity).
    destruct (N.eqb_spec x 0) as [Z|_]; [rewrite Z, N.bits_0 in B; discriminate|reflexivity].
Qed.
