(** Proofs about the granule descriptor. *)
From Coq Require Import NArith ZArith List Bool Lia ZifyBool ZifyN.
From Verif Require Import Bits Desc SpecDesc.
Import ListNotations.
Local Open Scope N_scope.

(** ** The word *)

Lemma tb_split : forall c h n, c < 2 ^ 10 -> N.testbit (c + 2 ^ 10 * h) n = if n <? 10 then N.testbit c n else N.testbit h (n - 10).
Proof.
  intros c h n Hc. replace (c + 2 ^ 10 * h) with (N.lor c (N.shiftl h 10)).
  - rewrite N.lor_spec, testbit_shiftl. destruct (N.ltb_spec n 10) as [L|L].
    + replace (10 <=? n) with false by lia. cbn [andb]. apply orb_false_r.
    + rewrite (testbit_false_lt c 10 n Hc L). replace (10 <=? n) with true by lia. reflexivity.
  - rewrite lor_disjoint_add; [rewrite N.shiftl_mul_pow2; lia|]. apply land_high with (k := 10); [exact Hc|].
    rewrite N.shiftl_mul_pow2. apply N.mod_mul. discriminate.
Qed.
Lemma lor_hi : forall c h m, c < 2 ^ 10 -> N.lor (c + 2 ^ 10 * h) (2 ^ 10 * m) = c + 2 ^ 10 * N.lor h m.
Proof.
  intros c h m Hc. apply N.bits_inj. intros n. rewrite N.lor_spec, !tb_split by exact Hc.
  replace (2 ^ 10 * m) with (0 + 2 ^ 10 * m) by lia. rewrite tb_split, N.lor_spec by lia.
  destruct (n <? 10); [rewrite N.bits_0; apply orb_false_r|reflexivity].
Qed.
Lemma ldiff_hi : forall c h m, c < 2 ^ 10 -> N.ldiff (c + 2 ^ 10 * h) (2 ^ 10 * m) = c + 2 ^ 10 * N.ldiff h m.
Proof.
  intros c h m Hc. apply N.bits_inj. intros n. rewrite N.ldiff_spec, !tb_split by exact Hc.
  replace (2 ^ 10 * m) with (0 + 2 ^ 10 * m) by lia. rewrite tb_split, N.ldiff_spec by lia.
  destruct (n <? 10); [rewrite N.bits_0; apply andb_true_r|reflexivity].
Qed.
Lemma lxor_hi : forall c h m, c < 2 ^ 10 -> N.lxor (c + 2 ^ 10 * h) (2 ^ 10 * m) = c + 2 ^ 10 * N.lxor h m.
Proof.
  intros c h m Hc. apply N.bits_inj. intros n. rewrite N.lxor_spec, !tb_split by exact Hc.
  replace (2 ^ 10 * m) with (0 + 2 ^ 10 * m) by lia. rewrite tb_split, N.lxor_spec by lia.
  destruct (n <? 10); [rewrite N.bits_0; apply xorb_false_r|reflexivity].
Qed.
Lemma land_hi : forall c h m, c < 2 ^ 10 -> N.land (c + 2 ^ 10 * h) (2 ^ 10 * m) = 2 ^ 10 * N.land h m.
Proof.
  intros c h m Hc. apply N.bits_inj. intros n. rewrite N.land_spec, !tb_split by exact Hc.
  replace (2 ^ 10 * m) with (0 + 2 ^ 10 * m) by lia. replace (2 ^ 10 * N.land h m) with (0 + 2 ^ 10 * N.land h m) by lia.
  rewrite !tb_split, N.land_spec by lia. destruct (n <? 10); [rewrite N.bits_0; apply andb_false_r|reflexivity].
Qed.

(** The upper six bits: lock and state *)
Definition hi (s l : N) : N := s + 32 * l.
Definition below (n : N) : list N := map N.of_nat (seq 0 (N.to_nat n)).
Lemma below_in : forall n x, x < n -> In x (below n).
Proof. intros n x H. unfold below. apply in_map_iff. exists (N.to_nat x). split; [apply N2Nat.id|]. apply in_seq. lia. Qed.
Lemma all2 : forall (P : N -> N -> bool) n m, forallb (fun x => forallb (P x) (below m)) (below n) = true ->
  forall x y, x < n -> y < m -> P x y = true.
Proof.
  intros P n m H x y Hx Hy. rewrite forallb_forall in H. specialize (H x (below_in _ _ Hx)).
  rewrite forallb_forall in H. exact (H y (below_in _ _ Hy)).
Qed.
Lemma hi_lor : forall s l, s < 32 -> l < 2 -> N.lor (hi s l) 32 = hi s 1.
Proof. intros s l Hs Hl. apply N.eqb_eq. revert s l Hs Hl. apply all2. vm_compute. reflexivity. Qed.
Lemma hi_ldiff : forall s l, s < 32 -> l < 2 -> N.ldiff (hi s l) 32 = hi s 0.
Proof. intros s l Hs Hl. apply N.eqb_eq. revert s l Hs Hl. apply all2. vm_compute. reflexivity. Qed.
Lemma hi_land_lock : forall s l, s < 32 -> l < 2 -> N.land (hi s l) 32 = 32 * l.
Proof. intros s l Hs Hl. apply N.eqb_eq. revert s l Hs Hl. apply all2. vm_compute. reflexivity. Qed.
Lemma hi_land_state : forall s l, s < 32 -> l < 2 -> N.land (hi s l) 31 = s.
Proof. intros s l Hs Hl. apply N.eqb_eq. revert s l Hs Hl. apply all2. vm_compute. reflexivity. Qed.
Lemma hi_lxor : forall s l v, s < 32 -> l < 2 -> v < 32 -> N.lxor (hi s l) (N.lxor s v) = hi v l.
Proof.
  intros s l v Hs Hl Hv.
  assert (K : forallb (fun b => b) (map (fun v => forallb (fun s => forallb (fun l => N.lxor (hi s l) (N.lxor s v) =? hi v l) (below 2)) (below 32)) (below 32)) = true)
    by (vm_compute; reflexivity).
  rewrite forallb_forall in K. specialize (K (forallb (fun s => forallb (fun l => N.lxor (hi s l) (N.lxor s v) =? hi v l) (below 2)) (below 32))).
  apply N.eqb_eq. revert s l Hs Hl. apply all2. apply K. apply in_map_iff. exists v. split; [reflexivity|apply below_in; exact Hv].
Qed.

Definition w3 (c s l : N) : N := c + 2 ^ 10 * hi s l.
Section Word.
Variables c s l : N.
Hypothesis (Hc : c < 2 ^ 10) (Hs : s < 32) (Hl : l < 2).
Lemma w3_locked : LOCKED (w3 c s l) = (l =? 1).
Proof using Hc Hs Hl.
  unfold LOCKED, w3. change GRN_LOCK_BIT with (2 ^ 10 * 32). rewrite land_hi, hi_land_lock by assumption.
  destruct (N.eqb_spec l 1) as [->|]; [reflexivity|]. replace l with 0 by lia. reflexivity.
Qed.
Lemma w3_count : REFCOUNT (w3 c s l) = c.
Proof using Hc Hs Hl.
  unfold REFCOUNT, w3, REFCOUNT_MASK. rewrite N.land_ones. replace (c + 2 ^ 10 * hi s l) with (c + hi s l * 2 ^ 10) by lia.
  rewrite N.mod_add by discriminate. apply N.mod_small. exact Hc.
Qed.
Lemma w3_land_state : N.land (w3 c s l) STATE_MASK = 2 ^ 10 * s.
Proof using Hc Hs Hl. unfold w3. change STATE_MASK with (2 ^ 10 * 31). rewrite land_hi, hi_land_state by assumption. reflexivity. Qed.
Lemma w3_state : STATE (w3 c s l) = s.
Proof using Hc Hs Hl.
  unfold STATE. rewrite w3_land_state. rewrite N.shiftr_div_pow2. replace (2 ^ 10 * s) with (s * 2 ^ 10) by lia. apply N.div_mul. discriminate.
Qed.
Lemma w3_set : N.lor (w3 c s l) GRN_LOCK_BIT = w3 c s 1.
Proof using Hc Hs Hl. unfold w3. change GRN_LOCK_BIT with (2 ^ 10 * 32). rewrite lor_hi, hi_lor by assumption. reflexivity. Qed.
Lemma w3_clr : N.ldiff (w3 c s l) GRN_LOCK_BIT = w3 c s 0.
Proof using Hc Hs Hl. unfold w3. change GRN_LOCK_BIT with (2 ^ 10 * 32). rewrite ldiff_hi, hi_ldiff by assumption. reflexivity. Qed.
Lemma w3_eor : forall v, v < 32 -> N.lxor (w3 c s l) (N.lxor (2 ^ 10 * s) (u16 (N.shiftl v 10))) = w3 c v l.
Proof using Hc Hs Hl.
  intros v Hv. assert (E : u16 (N.shiftl v 10) = 2 ^ 10 * v).
  { unfold u16. rewrite N.shiftl_mul_pow2, N.mod_small; lia. }
  rewrite E. replace (2 ^ 10 * s) with (0 + 2 ^ 10 * s) by lia. rewrite lxor_hi by reflexivity. rewrite N.add_0_l.
  unfold w3. rewrite lxor_hi, hi_lxor by assumption. reflexivity.
Qed.
Lemma w3_add : forall n, c + n < 2 ^ 10 -> u16 (w3 c s l + n) = w3 (c + n) s l.
Proof using Hc Hs Hl. intros n H. unfold u16, w3, hi. rewrite N.mod_small; lia. Qed.
Lemma w3_sub : forall n, n <= c -> n < 65536 -> u16 (w3 c s l + u16 (65536 - n)) = w3 (c - n) s l.
Proof using Hc Hs Hl.
  intros n H Hn. unfold u16. destruct (N.eq_dec n 0) as [->|Ne].
  - change ((65536 - 0) mod 65536) with 0. rewrite N.add_0_r, N.sub_0_r. apply N.mod_small. unfold w3, hi. lia.
  - rewrite (N.mod_small (65536 - n)) by lia. symmetry. apply (N.mod_unique _ _ 1); unfold w3, hi; lia.
Qed.
End Word.

Definition lockbit (x : fields) : N := match f_lock x with Some _ => 1 | None => 0 end.
Lemma word_w3 : forall x, word_of x = w3 (Z.to_N (f_count x)) (f_state x) (lockbit x).
Proof. intros x. unfold word_of, w3, hi, lockbit. lia. Qed.

(** ** The invariant *)

Section Inv.
Variable x0 : fields.
Hypothesis (F0 : f_lock x0 = None) (S0 : f_state x0 < 32) (C0 : count_ok (f_count x0)).

(** Where a function can be *)
Definition place (y : fields) (f : gcall) (k : mp (option N)) : Prop :=
  k = gcall_prog f \/ (needs_lock f = true /\ gcall_prog f = assert_locked k) \/
  (exists s, f = GSetState s /\ k = MLdEor (N.lxor (2 ^ 10 * f_state y) (u16 (N.shiftl s 10))) (fun _ => MRet (Some 0))) \/
  (f = GAcquire /\ k = MRead (fun _ => MRet None)).
Definition thread_ok (y : fields) (p : N) (t : option (gcall * mp (option N))) : Prop :=
  match t with None => True | Some (f, k) => args_ok f /\ (needs_lock f = true -> f_lock y = Some p) /\ place y f k end.

Record J (x : conf) (y : fields) : Prop := {
  j_log : explains x0 (c_log x) y;
  j_word : c_word x = word_of y;
  j_state : f_state y < 32;
  j_count : count_ok (f_count y);
  j_holds : forall p, holds p (c_log x) = true <-> f_lock y = Some p;
  j_th : forall p, thread_ok y p (c_th x p)
}.

Lemma j_start : J (start (word_of x0)) x0.
Proof using F0 S0 C0.
  constructor; cbn [start c_log c_word c_th]; auto; [constructor| |].
  - intros p. rewrite F0. cbn [holds]. split; discriminate.
  - intros p. exact Logic.I.
Qed.

Lemma effect_state : forall p f y, args_ok f -> f_state y < 32 -> f_state (effect p f y) < 32.
Proof using. intros p f y A B. destruct f; cbn [effect f_state]; auto. Qed.
Lemma effect_holds : forall p f r l y, (forall q, holds q l = true <-> f_lock y = Some q) ->
  (f = GAcquire -> f_lock y = None) -> (f = GRelease -> f_lock y = Some p) ->
  forall q, holds q ((p, f, r) :: l) = true <-> f_lock (effect p f y) = Some q.
Proof using.
  intros p f r l y H A R q. cbn [holds]. destruct f; cbn [effect f_lock]; try apply H.
  - destruct (N.eqb_spec p q) as [->|Ne]; [tauto|]. split; [|congruence]. intros K. apply H in K. rewrite (A eq_refl) in K. discriminate.
  - destruct (N.eqb_spec p q) as [->|Ne]; [split; discriminate|]. split; [|discriminate]. intros K. apply H in K. rewrite (R eq_refl) in K. congruence.
Qed.
(** The other CPUs are where they were *)
Lemma others : forall p f y q t, q <> p -> (f = GAcquire -> f_lock y = None) -> (needs_lock f = true -> f_lock y = Some p) ->
  thread_ok y q t -> thread_ok (effect p f y) q t.
Proof using.
  intros p f y q [[g k]|] Ne A L H; [|exact Logic.I]. destruct H as (H1 & H2 & H3). split; [exact H1|].
  assert (K : needs_lock g = true -> f_lock (effect p f y) = f_lock y /\ f_state (effect p f y) = f_state y).
  { intros G. specialize (H2 G). destruct f; cbn [effect f_lock f_state needs_lock] in *; auto;
      try (specialize (L eq_refl); rewrite H2 in L; injection L as L; congruence).
    rewrite (A eq_refl) in H2. discriminate. }
  split; [intros G; rewrite (proj1 (K G)); auto|].
  destruct H3 as [H3|[H3|[(s & E & H3)|H3]]].
  - left; exact H3.
  - right; left; exact H3.
  - right; right; left. exists s. split; [exact E|]. subst g. rewrite (proj2 (K eq_refl)). exact H3.
  - right; right; right. exact H3.
Qed.

(** A function returns *)
Lemma j_return : forall x y p f r, J x y -> args_ok f -> (f = GAcquire -> f_lock y = None) -> (needs_lock f = true -> f_lock y = Some p) -> r = answer f y ->
  count_ok (f_count (effect p f y)) ->
  J (mkConf (word_of (effect p f y)) (set_th x p None) ((p, f, r) :: c_log x)) (effect p f y).
Proof using.
  intros x y p f r [JL JW JS JC JH JT] A1 A2 A3 A4 A5.
  constructor; cbn [c_log c_word c_th].
  - apply explains_cons; assumption.
  - reflexivity.
  - apply effect_state; assumption.
  - exact A5.
  - apply effect_holds; [exact JH|exact A2|intros ->; exact (A3 eq_refl)].
  - intros q. unfold set_th. destruct (N.eqb_spec q p) as [->|Ne]; [exact Logic.I|]. apply others; auto.
Qed.
(** A function goes on without effect *)
Lemma j_on : forall x y p f k, J x y -> args_ok f -> (needs_lock f = true -> f_lock y = Some p) -> place y f k ->
  J (mkConf (c_word x) (set_th x p (Some (f, k))) (c_log x)) y.
Proof using.
  intros x y p f k [JL JW JS JC JH JT] A1 A2 A3. constructor; cbn [c_log c_word c_th]; auto.
  intros q. unfold set_th. destruct (N.eqb_spec q p) as [->|Ne]; [exact (conj A1 (conj A2 A3))|]. apply JT.
Qed.

Definition good (y : fields) (o : moved) : Prop :=
  match o with
  | Moved x' => exists y', J x' y'
  | Failed p f x' => (needs_lock f = true -> f_lock y = Some p) /\ ~ count_ok (f_count (effect p f y))
  | NoMove => True
  end.

Lemma conf_eta : forall x, mkConf (c_word x) (c_th x) (c_log x) = x.
Proof. intros []. reflexivity. Qed.

Ltac ret_tac := match goal with JX : J _ _ |- _ => eapply j_return; [exact JX|assumption|try discriminate; auto|try discriminate; auto|auto|auto; cbn [effect f_count]; unfold count_ok; lia] end.

Lemma j_take : forall x y mv, J x y -> allowed x mv -> good y (take x mv).
Proof using F0 S0 C0.
  intros x y mv JX AL. pose proof JX as [JL JW JS JC JH JT]. destruct mv as [p f|p]; cbn [take].
  - destruct (c_th x p) eqn:E; [exact Logic.I|]. cbn [allowed] in AL. destruct AL as (A & B).
    exists y. apply j_on; auto; [|left; reflexivity]. intros N. apply JH. auto.
  - destruct (c_th x p) as [[f k]|] eqn:E; [|exact Logic.I].
    pose proof (JT p) as HT. rewrite E in HT. pose proof HT as (HA & HN & HP).
    unfold count_ok in JC. set (c := Z.to_N (f_count y)) in *. set (s := f_state y) in *.
    assert (W : c_word x = w3 c s (lockbit y)) by (rewrite JW; apply word_w3).
    assert (Hc : c < 2 ^ 10) by (subst c; lia). assert (Hl : lockbit y < 2) by (unfold lockbit; destruct (f_lock y); lia).
    assert (WL : LOCKED (c_word x) = match f_lock y with Some _ => true | None => false end).
    { rewrite W, w3_locked by assumption. unfold lockbit. destruct (f_lock y); reflexivity. }
    assert (WC : REFCOUNT (c_word x) = c) by (rewrite W; apply w3_count; assumption).
    assert (WS : STATE (c_word x) = s) by (rewrite W; apply w3_state; assumption).
    (* the check of the lock *)
    assert (CK : forall k', k = assert_locked k' -> gcall_prog f = k -> (match k' with MRet _ | MFail => False | _ => True end) ->
      needs_lock f = true ->
      good y (let '(d, k'0) := access (c_word x) k in
              match k'0 with
              | MRet (Some r) => Moved (mkConf d (set_th x p None) ((p, f, r) :: c_log x))
              | MRet None => Moved (mkConf d (set_th x p (Some (f, gcall_prog f))) (c_log x))
              | MFail => Failed p f (mkConf d (set_th x p None) (c_log x))
              | _ => Moved (mkConf d (set_th x p (Some (f, k'0))) (c_log x))
              end)).
    { intros k' -> G NR NL. cbn [access assert_locked]. rewrite WL, (HN NL).
      assert (PL : place y f k') by (right; left; rewrite G; split; [exact NL|reflexivity]).
      destruct k'; try contradiction; (exists y; apply j_on; assumption). }
    destruct HP as [->|[(NL & HP)|[(v & -> & ->)|(-> & ->)]]].
    + destruct f; cbn [gcall_prog] in *;
        try (apply (CK _ eq_refl eq_refl); [exact Logic.I|reflexivity]).
      * (* acquire *) unfold granule_bitlock_acquire. cbn [access]. rewrite WL. destruct (f_lock y) as [q|] eqn:L.
        -- cbn [negb]. cbn [good]. exists y.
           replace (N.lor (c_word x) GRN_LOCK_BIT) with (c_word x).
           { apply j_on; [exact JX|exact Logic.I|discriminate|]. right; right; right. split; reflexivity. }
           rewrite W, w3_set by assumption. unfold lockbit. rewrite L. reflexivity.
        -- cbn [negb good]. exists (effect p GAcquire y).
           replace (N.lor (c_word x) GRN_LOCK_BIT) with (word_of (effect p GAcquire y)).
           { ret_tac. }
           rewrite W, w3_set by assumption. rewrite word_w3. reflexivity.
      * (* release *) unfold granule_bitlock_release. cbn [access good]. exists (effect p GRelease y).
        replace (N.ldiff (c_word x) GRN_LOCK_BIT) with (word_of (effect p GRelease y)).
        { ret_tac. }
        rewrite W, w3_clr by assumption. rewrite word_w3. reflexivity.
      * (* read *) unfold granule_refcount_read. cbn [access good]. exists (effect p GRead y). rewrite WC, JW. change (word_of y) with (word_of (effect p GRead y)).
        ret_tac.
      * unfold granule_unlocked_state. cbn [access good]. exists (effect p GUnlockedState y). rewrite WS, JW. change (word_of y) with (word_of (effect p GUnlockedState y)).
        ret_tac.
      * (* put_release *) unfold atomic_granule_put_release. cbn [access]. rewrite WC.
        destruct (N.eqb_spec c 0) as [Z|Z]; cbn [negb good].
        -- split; [discriminate|]. cbn [effect f_count]. unfold count_ok. lia.
        -- exists (effect p GPutRelease y).
           replace (u16 (c_word x + 65535)) with (word_of (effect p GPutRelease y)).
           { ret_tac. }
           rewrite W. change 65535 with (u16 (65536 - 1)). rewrite w3_sub by (assumption || lia).
           rewrite word_w3. cbn [effect f_count f_state]. f_equal. lia.
    + (* after the check *)
      destruct f; cbn [gcall_prog] in HP; try discriminate NL; try discriminate HP.
      * injection HP as HP. assert (K : k = MRead (fun d => MRet (Some (REFCOUNT d)))) by
          (pose proof (f_equal (fun g => g GRN_LOCK_BIT) HP) as Q; exact (eq_sym Q)).
        subst k. cbn [access good]. exists (effect p GReadAcquire y). rewrite WC, JW. change (word_of y) with (word_of (effect p GReadAcquire y)).
        ret_tac.
      * injection HP as HP. assert (K : k = MRead (fun d => MRet (Some (STATE d)))) by
          (pose proof (f_equal (fun g => g GRN_LOCK_BIT) HP) as Q; exact (eq_sym Q)).
        subst k. cbn [access good]. exists (effect p GState y). rewrite WS, JW. change (word_of y) with (word_of (effect p GState y)).
        ret_tac.
      * injection HP as HP. pose proof (f_equal (fun g => g GRN_LOCK_BIT) HP) as Q. symmetry in Q. cbn beta in Q.
        change (LOCKED GRN_LOCK_BIT) with true in Q. cbv iota in Q. subst k. cbn [access good]. exists y. apply j_on; [exact JX|exact HA|exact HN|].
        right; right; left. exists state. split; [reflexivity|]. cbv zeta. rewrite W, w3_land_state by assumption. reflexivity.
      * injection HP as HP. pose proof (f_equal (fun g => g GRN_LOCK_BIT) HP) as Q. symmetry in Q. cbn beta in Q.
        change (LOCKED GRN_LOCK_BIT) with true in Q. cbv iota in Q. subst k. cbn [access]. rewrite WC. change REFCOUNT_MAX with 1023.
        destruct (N.leb_spec (c + val) 1023) as [Z|Z]; cbn [good].
        -- exists (effect p (GInc val) y).
           replace (u16 (c_word x + val)) with (word_of (effect p (GInc val) y)).
           { ret_tac. }
           rewrite W. rewrite w3_add by (assumption || lia). rewrite word_w3. cbn [effect f_count f_state]. f_equal. lia.
        -- split; [exact HN|]. cbn [effect f_count]. unfold count_ok. lia.
      * pose proof (f_equal (fun m => match m with MRead g => g GRN_LOCK_BIT | _ => MFail end) HP) as Q. symmetry in Q.
        unfold granule_refcount_dec, assert_locked in Q. cbv beta iota in Q.
        change (LOCKED GRN_LOCK_BIT) with true in Q. cbv iota in Q. subst k. cbn [access]. rewrite WC.
        destruct (N.leb_spec val c) as [Z|Z]; cbn [good].
        -- exists (effect p (GDec val) y).
           replace (u16 (c_word x + u16 (65536 - val))) with (word_of (effect p (GDec val) y)).
           { ret_tac. }
           rewrite W. rewrite w3_sub by (assumption || lia || exact HA). rewrite word_w3. cbn [effect f_count f_state]. f_equal. lia.
        -- split; [exact HN|]. cbn [effect f_count]. unfold count_ok. lia.
    + (* the eor *) cbn [access good]. exists (effect p (GSetState v) y).
      replace (N.lxor (c_word x) _) with (word_of (effect p (GSetState v) y)).
      { ret_tac. }
      cbn [args_ok] in HA. rewrite W, w3_eor by assumption. rewrite word_w3. reflexivity.
    + (* again *) cbn [access good]. exists y. apply j_on; auto. left; reflexivity.
Qed.

Lemma runs_j : forall x, runs (word_of x0) x -> exists y, J x y.
Proof using F0 S0 C0.
  intros x H. induction H as [|x mv x' H IH A T]; [exists x0; apply j_start|].
  destruct IH as (y & JY). pose proof (j_take x y mv JY A) as G. rewrite T in G. exact G.
Qed.
End Inv.

Lemma desc_fields : forall x0 x, f_lock x0 = None -> f_state x0 < 32 -> count_ok (f_count x0) -> runs (word_of x0) x ->
  exists y, explains x0 (c_log x) y /\ c_word x = word_of y.
Proof. intros x0 x A B C H. destruct (runs_j x0 A B C x H) as (y & JY). exists y. split; [apply j_log with (1 := JY)|apply j_word with (1 := JY)]. Qed.
Lemma desc_fails : forall x0 x mv p f x', f_lock x0 = None -> f_state x0 < 32 -> count_ok (f_count x0) -> runs (word_of x0) x ->
  allowed x mv -> take x mv = Failed p f x' ->
  exists y, explains x0 (c_log x) y /\ ~ count_ok (f_count (effect p f y)).
Proof.
  intros x0 x mv p f x' A B C H D T. destruct (runs_j x0 A B C x H) as (y & JY). pose proof (j_take x0 A B C x y mv JY D) as G.
  rewrite T in G. destruct G as (_ & G). exists y. split; [apply j_log with (1 := JY)|exact G].
Qed.
Lemma desc_lock : forall x0 x p q, f_lock x0 = None -> f_state x0 < 32 -> count_ok (f_count x0) -> runs (word_of x0) x ->
  holds p (c_log x) = true -> (holds q (c_log x) = true -> p = q) /\ LOCKED (c_word x) = true.
Proof.
  intros x0 x p q A B C H Hp. destruct (runs_j x0 A B C x H) as (y & JY). pose proof JY as [JL JW JS JC JH JT].
  apply JH in Hp. split; [intros Hq; apply JH in Hq; congruence|].
  rewrite JW, word_w3, w3_locked; [unfold lockbit; rewrite Hp; reflexivity| |exact JS|unfold lockbit; destruct (f_lock y); lia].
  unfold count_ok in JC. lia.
Qed.
(** What is written in a field can be read from the word *)
Lemma word_fields : forall y, f_state y < 32 -> count_ok (f_count y) ->
  STATE (word_of y) = f_state y /\ Z.of_N (REFCOUNT (word_of y)) = f_count y /\
  LOCKED (word_of y) = match f_lock y with Some _ => true | None => false end.
Proof.
  intros y A B. unfold count_ok in B. rewrite word_w3.
  assert (Hc : Z.to_N (f_count y) < 2 ^ 10) by lia. assert (Hl : lockbit y < 2) by (unfold lockbit; destruct (f_lock y); lia).
  rewrite w3_state, w3_count, w3_locked by assumption. unfold lockbit. repeat split; [lia|]. destruct (f_lock y); reflexivity.
Qed.
